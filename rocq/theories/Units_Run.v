(** Proofs about other units: several fractions, the bed, and whole runs. *)
From Coq Require Import QArith Lia Lqa List Bool Arith Setoid.
From Verif Require Import Base Num Utils_Model Bed_Model Solver_Model Solver_Spec Linear Solver_Proofs Solver_Iter Run_Model Units_Spec Units_Proofs.
Import ListNotations.
Open Scope Q_scope.

Notation times c := (Forall2 (in_unit c)).
Lemma tm_len c l l' : times c l l' -> length l' = length l.
Proof. induction 1; cbn; congruence. Qed.
Lemma tm_sum c l l' : times c l l' -> qsum l' == c * qsum l.
Proof. unfold qsum. induction 1 as [|x x' l l' H H' IH]; cbn [fold_right]. ring. unfold in_unit in H. rewrite H, IH. ring. Qed.
Lemma tm_nth c l l' : times c l l' -> forall i, nth i l' 0 == c * nth i l 0.
Proof. induction 1 as [|x x' l l' H H' IH]; intros [|i]; cbn [nth]; try ring. exact H. apply IH. Qed.
Lemma tm_firstn c l l' : times c l l' -> forall n, times c (firstn n l) (firstn n l').
Proof. induction 1 as [|x x' l l' H H' IH]; intros [|n]; cbn [firstn]; constructor. exact H. apply IH. Qed.
Lemma tm_skipn c l l' : times c l l' -> forall n, times c (skipn n l) (skipn n l').
Proof. induction 1 as [|x x' l l' H H' IH]; intros [|n]; cbn [skipn]; try constructor; try assumption. apply IH. Qed.
Lemma tm_app c a a' b b' : times c a a' -> times c b b' -> times c (a ++ b) (a' ++ b').
Proof. apply Forall2_app. Qed.
Lemma tm_map (c e : Q) (f f' : Q -> Q) l l' : times c l l' -> (forall x x', in_unit c x x' -> in_unit e (f x) (f' x')) -> times e (map f l) (map f' l').
Proof. intros H Hf. induction H; cbn [map]; constructor. apply Hf, H. exact IHForall2. Qed.
Lemma tm_map2 (c e g : Q) (f f' : Q -> Q -> Q) a a' b b' : times c a a' -> times e b b' -> (forall x x' y y', in_unit c x x' -> in_unit e y y' -> in_unit g (f x y) (f' x' y')) ->
  times g (map2 f a b) (map2 f' a' b').
Proof. intros H. revert b b'. induction H as [|x x' l l' H H' IH]; intros b b' Hb Hf; cbn [map2]. constructor. destruct Hb; constructor. apply Hf; assumption. apply IH; assumption. Qed.
Lemma tm_refl l : times 1 l l.
Proof. induction l; constructor. unfold in_unit. ring. exact IHl. Qed.

Lemma quotient_in c fill x x' r r' : 0 < c -> in_unit c x x' -> in_unit c r r' -> in_unit 1 (quotient fill x r) (quotient fill x' r').
Proof.
  intros Hc Hx Hr. unfold in_unit in *. unfold quotient. rewrite (scaled_eqb c r r' Hc Hr). destruct (Qeq_bool_spec r 0) as [|N]. ring. rewrite Hx, Hr. field. split; [exact N | lra].
Qed.
Lemma normalize_ref_in c fill x x' r r' : 0 < c -> times c x x' -> times c r r' -> times 1 (normalize_ref fill x r) (normalize_ref fill x' r').
Proof. intros Hc Hx Hr. unfold normalize_ref. eapply tm_map2; [exact Hx | exact Hr |]. intros. apply (quotient_in c); assumption. Qed.
Lemma normalize_in c fill x x' : 0 < c -> times c x x' -> times 1 (normalize fill x) (normalize fill x').
Proof. intros Hc Hx. unfold normalize. apply (normalize_ref_in c). exact Hc. exact Hx. apply (tm_map c c _ _ _ _ Hx). intros. apply tm_sum, Hx. Qed.
Lemma renorm_in w w' ix : times 1 w w' -> times 1 (renormalize_weights w ix) (renormalize_weights w' ix).
Proof.
  intros H. unfold renormalize_weights. rewrite (tm_len 1 w w' H). apply (normalize_in 1). lra. apply tm_app. apply tm_firstn, H.
  eapply tm_map. apply (normalize_in 1 0 (skipn ix w) (skipn ix w')). lra. apply tm_skipn, H. intros x x' Hx. unfold in_unit in *. rewrite Hx, (tm_sum _ _ _ (tm_firstn 1 w w' H ix)). ring.
Qed.
Lemma set_nth_in x x' : in_unit 1 x x' -> forall n l l', times 1 l l' -> times 1 (set_nth n x l) (set_nth n x' l').
Proof. intros Hx n l l' H. revert n. induction H; intros [|n]; cbn [set_nth]; constructor; try assumption. apply IHForall2. Qed.
Lemma weights_in c b ct ct' cu cu' m m' : 0 < c -> times c ct ct' -> times c cu cu' -> times c m m' -> times 1 (compute_weights b ct cu m) (compute_weights b ct' cu' m').
Proof.
  intros Hc H1 H2 H3. unfold compute_weights. pose proof (normalize_ref_in c 0 ct ct' cu cu' Hc H1 H2) as Ha. pose proof (normalize_in c 0 m m' Hc H3) as Hb. fold (w_air ct cu) (w_air ct' cu') in Ha. fold (w_bed m) (w_bed m') in Hb.
  apply (normalize_in 1). lra. eapply tm_map2; [exact Ha | exact Hb |]. intros x x' y y' Hx Hy. unfold in_unit in *. pose proof (tm_sum _ _ _ Ha) as Hs.
  assert (Hm : qmin 1 ((1 - b) * qsum (w_air ct' cu')) == qmin 1 ((1 - b) * qsum (w_air ct cu))).
  { rewrite (scaled_min 1 1 ((1 - b) * qsum (w_air ct cu))). ring. lra. ring. rewrite Hs. ring. }
  rewrite Hm, Hx, Hy. ring.
Qed.

Section Solve.
Variables (u : units) (sp sp' : (nat -> nat -> Q) -> (nat -> Q) -> nat -> Q) (k : cfg).
Hypothesis Hu : proper u.
Hypothesis Hlat : trunk k = true \/ lateral k = Circular.
Let k' := cfg_in u k.
Notation C := (per_area u).
Notation n := (cells k).
(** What the solver reads of a fraction. *)
Definition class_rel (g g' : flow * input) : Prop := fst g' = flow_in u (fst g) /\ input_rel u n (snd g) (snd g') /\ exact_in u sp sp' k (fst g).
Lemma fractions_in : forall fs fs', Forall2 class_rel fs fs' -> forall i w w', (forall j, (j < n)%nat -> times 1 (w j) (w' j)) -> answer_in u n (fractions sp k i fs w) (fractions sp' k' i fs' w').
Proof.
  induction 1 as [|[f d] [f' d'] fs fs' (H1 & H2 & H3) _ IH]; intros i w w' Hw; cbn [fractions].
  - split. constructor. exact Hw.
  - cbn [fst snd] in *. subst f'. change (cells k') with n.
    assert (Hw1 : forall j, (j < n)%nat -> times 1 (renormalize_weights (w j) i) (renormalize_weights (w' j) i)) by (intros j Hj; apply renorm_in, Hw, Hj).
    pose proof (fraction_in u Hu k f Hlat d d' H2 sp sp' H3 (memo n (fun c => nth i (renormalize_weights (w c) i) 0)) (memo n (fun c => nth i (renormalize_weights (w' c) i) 0))) as F.
    assert (E : forall j, (j < n)%nat -> memo n (fun c => nth i (renormalize_weights (w' c) i) 0) j == memo n (fun c => nth i (renormalize_weights (w c) i) 0) j).
    { intros j Hj. rewrite !memo_get by exact Hj. rewrite (tm_nth _ _ _ (Hw1 j Hj)). ring. }
    specialize (F E). fold k' in F. destruct (solve_fraction sp k f d _) as [[o|]|e], (solve_fraction sp' k' (flow_in u f) d' _) as [[o'|]|e']; cbn [bind option_in] in *; try contradiction; try exact I; [|exact F].
    destruct F as (F1 & F2).
    assert (Hw2 : forall j, (j < n)%nat -> times 1 (set_nth i (weight o j) (renormalize_weights (w j) i)) (set_nth i (weight o' j) (renormalize_weights (w' j) i))).
    { intros j Hj. apply set_nth_in. apply (F2 j Hj). apply Hw1, Hj. }
    pose proof (IH (S i) _ _ Hw2) as G. unfold answer_in in G.
    destruct (fractions sp k (S i) fs _) as [[[os w2]|]|e], (fractions sp' k' (S i) fs' _) as [[[os' w2']|]|e']; cbn [bind answer_in] in *; try contradiction; try exact I; [|exact G].
    destruct G as (G1 & G2). split; [|exact G2]. constructor; [split; [exact F1 | exact F2] | exact G1].
Qed.
Lemma solve_in t0 b dist init init' fs fs' : Forall2 class_rel fs fs' -> (forall j, (j < n)%nat -> times 1 (init j) (init' j)) ->
  answer_in u n (solve sp k t0 b dist init fs) (solve sp' k' t0 b dist init' fs').
Proof.
  intros Hfs Hi. pose proof (fun w w' => fractions_in fs fs' Hfs 0%nat w w') as F. unfold solve, start_weights. change (trunk k') with (trunk k).
  destruct t0; [destruct (trunk k); [destruct b | destruct dist as [|x [|y l]]]|]; cbn [bind]; try reflexivity; apply F; try exact Hi; intros; apply tm_refl.
Qed.
End Solve.

(** ** The bed *)
Section Bed.
Variable c : Q.
Hypothesis Hc : 0 < c.
Notation beds := (Forall2 (times c)).
Lemma vsub_in a a' b b' : times c a a' -> times c b b' -> times c (vsub a b) (vsub a' b').
Proof. intros Ha Hb. unfold vsub. eapply tm_map2; [exact Ha | exact Hb |]. intros x x' y y' Hx Hy. unfold in_unit in *. rewrite Hx, Hy. ring. Qed.
Lemma vadd_in a a' b b' : times c a a' -> times c b b' -> times c (vadd a b) (vadd a' b').
Proof. intros Ha Hb. unfold vadd. eapply tm_map2; [exact Ha | exact Hb |]. intros x x' y y' Hx Hy. unfold in_unit in *. rewrite Hx, Hy. ring. Qed.
Lemma vscale_in x x' a a' : in_unit c x x' -> times 1 a a' -> times c (vscale x a) (vscale x' a').
Proof. intros Hx Ha. unfold vscale. eapply tm_map; [exact Ha |]. intros y y' Hy. unfold in_unit in *. rewrite Hx, Hy. ring. Qed.
Lemma erosive_in p p' : times c p p' -> times c (erosive p) (erosive p').
Proof. intros H. unfold erosive. eapply tm_map; [exact H |]. intros y y' Hy. unfold in_unit in *. unfold qmax. destruct (Qle_bool_spec 0 y), (Qle_bool_spec 0 y'); nra. Qed.
Lemma depositing_in p p' : times c p p' -> times c (depositing p) (depositing p').
Proof. intros H. unfold depositing. eapply tm_map; [exact H |]. intros y y' Hy. unfold in_unit in *. unfold qmin. destruct (Qle_bool_spec 0 y), (Qle_bool_spec 0 y'); nra. Qed.
Definition triple_in (x x' : list (list Q) * Q * list Q) : Prop := beds (fst (fst x)) (fst (fst x')) /\ in_unit c (snd (fst x)) (snd (fst x')) /\ times c (snd x) (snd x').
Lemma minus_sum_in p p' : times c p p' -> in_unit c (- qsum p) (- qsum p').
Proof. intros H. unfold in_unit. rewrite (tm_sum _ _ _ H). ring. Qed.
Lemma prevent1_in m m' dm dm' p p' : beds m m' -> in_unit c dm dm' -> times c p p' -> triple_in (prevent1 m dm p) (prevent1 m' dm' p').
Proof.
  intros Hm Hd Hp. unfold prevent1. cbv zeta. pose proof (erosive_in p p' Hp) as He. pose proof (depositing_in p p' Hp) as Hq. pose proof (tm_sum _ _ _ He) as Hs.
  rewrite (scaled_lt c 0 dm 0 dm' Hc) by (try exact Hd; ring). rewrite (scaled_lt c 0 (qsum (erosive p)) 0 (qsum (erosive p')) Hc) by (try exact Hs; ring).
  destruct (_ && _).
  - pose proof (vscale_in _ _ _ _ Hs (normalize_in c 0 _ _ Hc Hq)) as Hv. repeat split; cbn [fst snd].
    + destruct Hm as [|t t' r r' Ht Hr]; constructor. apply vsub_in. exact Ht. apply vsub_in; assumption. exact Hr.
    + apply minus_sum_in, vsub_in; assumption.
    + apply vsub_in; assumption.
  - repeat split; assumption.
Qed.
Lemma top_mass_in m m' : beds m m' -> in_unit c (top_mass m) (top_mass m').
Proof. intros [|t t' r r' Ht Hr]; cbn [top_mass]. unfold in_unit. ring. apply tm_sum, Ht. Qed.
Lemma exceeds_in dm dm' mx mx' i : in_unit c dm dm' -> in_unit c mx mx' -> exceeds dm' mx' i = exceeds dm mx i.
Proof.
  intros Hd Hx. unfold exceeds. rewrite (scaled_eqb c mx mx' Hc Hx). destruct (Qeq_bool_spec mx 0) as [|N].
  - apply (scaled_lt c); [exact Hc | ring | exact Hd].
  - assert (E : dm' / mx' == dm / mx) by (unfold in_unit in *; rewrite Hd, Hx; field; split; [exact N | lra]). rewrite (Qfloor_comp _ _ E). reflexivity.
Qed.
Lemma removelast_in m m' : beds m m' -> beds (removelast m) (removelast m').
Proof. induction 1 as [|t t' r r' Ht Hr IH]; cbn [removelast]. constructor. destruct Hr; constructor; assumption. Qed.
Lemma fill_layers_in dm dm' mx mx' fr fr' : in_unit c dm dm' -> in_unit c mx mx' -> times c fr fr' ->
  forall k i m m' p p', beds m m' -> times c p p' -> beds (fst (fill_layers dm mx fr i k m p)) (fst (fill_layers dm' mx' fr' i k m' p')) /\ times c (snd (fill_layers dm mx fr i k m p)) (snd (fill_layers dm' mx' fr' i k m' p')).
Proof.
  intros Hd Hx Hf. induction k as [|k IH]; intros i m m' p p' Hm Hp; cbn [fill_layers]; [split; assumption|].
  rewrite (exceeds_in dm dm' mx mx' i Hd Hx). destruct (exceeds dm mx i); [|split; assumption].
  destruct (IH (S i) _ _ _ _ (removelast_in m m' Hm) (vsub_in p p' fr fr' Hp Hf)) as (A & B).
  destruct (fill_layers dm mx fr (S i) k (removelast m) (vsub p fr)), (fill_layers dm' mx' fr' (S i) k (removelast m') (vsub p' fr')). cbn [fst snd] in *. split. constructor; assumption. exact B.
Qed.
Lemma beds_len m m' : beds m m' -> length m' = length m.
Proof. induction 1; cbn; congruence. Qed.
Lemma prevent2_in any m m' dm dm' p p' : beds m m' -> in_unit c dm dm' -> times c p p' -> triple_in (prevent2 any m dm p) (prevent2 any m' dm' p').
Proof.
  intros Hm Hd Hp. unfold prevent2. destruct any; [|repeat split; assumption]. cbv zeta. pose proof (top_mass_in m m' Hm) as Ht.
  pose proof (vscale_in _ _ _ _ Ht (normalize_in c 0 _ _ Hc Hp)) as Hf. rewrite (beds_len m m' Hm).
  destruct (fill_layers_in dm dm' _ _ _ _ Hd Ht Hf (length m) 0%nat m m' p p' Hm Hp) as (A & B).
  destruct (fill_layers dm (top_mass m) (vscale (top_mass m) (normalize 0 p)) 0 (length m) m p) as (m1, p1), (fill_layers dm' (top_mass m') (vscale (top_mass m') (normalize 0 p')) 0 (length m) m' p') as (m1', p1'). cbn [fst snd] in *.
  rewrite (scaled_lt c (top_mass m) dm (top_mass m') dm' Hc Ht Hd). destruct (Qltb (top_mass m) dm); [|repeat split; assumption].
  assert (Hz : times c (map (fun _ => 0) p1) (map (fun _ => 0) p1')) by (eapply tm_map; [exact B|]; intros; unfold in_unit; ring).
  repeat split; cbn [fst snd]. exact A. apply minus_sum_in, Hz. exact Hz.
Qed.
Notation weights2 := (Forall2 (times 1)).
Lemma norm_beds m m' : beds m m' -> weights2 (map (normalize 0) m) (map (normalize 0) m').
Proof. induction 1; cbn [map]; constructor. apply (normalize_in c); assumption. assumption. Qed.
Lemma arrange_erosion_in dm dm' : in_unit c dm dm' -> forall d d', weights2 d d' -> forall m m', beds m m' -> beds (arrange_erosion dm d m) (arrange_erosion dm' d' m').
Proof.
  intros Hd d d' H. induction H as [|x x' d d' Hx H IH]; intros m m' Hm. destruct Hm; cbn; constructor; assumption.
  destruct H as [|y y' d d' Hy H]. { cbn [arrange_erosion]. exact Hm. }
  destruct Hm as [|a a' m m' Ha Hm]. constructor. destruct Hm as [|b b' m m' Hb Hm]. { repeat constructor. exact Ha. }
  change (beds (vsub a (vscale dm y) :: arrange_erosion dm (y :: d) (vadd b (vscale dm y) :: m)) (vsub a' (vscale dm' y') :: arrange_erosion dm' (y' :: d') (vadd b' (vscale dm' y') :: m'))).
  constructor. apply vsub_in. exact Ha. apply vscale_in; assumption. apply IH. constructor. apply vadd_in. exact Hb. apply vscale_in; assumption. exact Hm.
Qed.
Lemma arrange_deposition_in dm dm' : in_unit c dm dm' -> forall d d', weights2 d d' -> forall m m', beds m m' -> beds (arrange_deposition dm d m) (arrange_deposition dm' d' m').
Proof.
  intros Hd d d' H. induction H as [|x x' d d' Hx H IH]; intros m m' Hm. destruct Hm; cbn; constructor; assumption.
  destruct Hm as [|a a' m m' Ha Hm]. constructor. cbn [arrange_deposition].
  assert (Hv : times c (vsub a (vscale dm x)) (vsub a' (vscale dm' x'))) by (apply vsub_in; [exact Ha | apply vscale_in; assumption]).
  destruct H as [|y y' d d' Hy H]. { constructor; assumption. }
  destruct Hm as [|b b' m m' Hb Hm]. { constructor. exact Hv. constructor. }
  constructor. exact Hv. apply IH. constructor. apply vadd_in. exact Hb. apply vscale_in; assumption. exact Hm.
Qed.
Lemma on_last_in f f' m m' : (forall a a', times c a a' -> times c (f a) (f' a')) -> beds m m' -> beds (on_last f m) (on_last f' m').
Proof. intros Hf H. induction H as [|a a' m m' Ha Hm IH]; cbn [on_last]. constructor. destruct Hm. constructor. apply Hf, Ha. constructor. constructor. exact Ha. exact IH. Qed.
Lemma tiny_in e e' l l' : in_unit c e e' -> times c l l' -> times c (prevent_tiny_negatives e 0 l) (prevent_tiny_negatives e' 0 l').
Proof.
  intros He H. unfold prevent_tiny_negatives. eapply tm_map; [exact H|]. intros x x' Hx. unfold in_unit in *. unfold no_tiny_negative.
  rewrite (scaled_lt c x 0 x' 0 Hc Hx) by ring. rewrite (scaled_lt c (- e) x (- e') x' Hc) by (try exact Hx; rewrite He; ring). destruct (_ && _). ring. exact Hx.
Qed.
Lemma update_cell_in any e e' base base' m m' p p' : in_unit c e e' -> times 1 base base' -> beds m m' -> times c p p' -> triple_in (update_cell any e base m p) (update_cell any e' base' m' p').
Proof.
  intros He Hb Hm Hp. unfold update_cell. cbv zeta. pose proof (minus_sum_in p p' Hp) as Hd. fold (exchanged p) (exchanged p') in Hd.
  pose proof (prevent1_in m m' _ _ p p' Hm Hd Hp) as (A1 & A2 & A3). destruct (prevent1 m (exchanged p) p) as ((m1, dm1), p1), (prevent1 m' (exchanged p') p') as ((m1', dm1'), p1'). cbn [fst snd] in *.
  pose proof (prevent2_in any m1 m1' _ _ p1 p1' A1 A2 A3) as (B1 & B2 & B3). destruct (prevent2 any m1 dm1 p1) as ((m2, dm2), p2), (prevent2 any m1' dm1' p1') as ((m2', dm2'), p2'). cbn [fst snd] in *.
  rewrite (scaled_lt c (exchanged p) 0 (exchanged p') 0 Hc Hd) by ring. rewrite (scaled_lt c 0 (exchanged p) 0 (exchanged p') Hc) by (try exact Hd; ring).
  pose proof (norm_beds m2 m2' B1) as Hn.
  assert (H3 : beds (first_layer (fun top => vsub top p2) m2) (first_layer (fun top => vsub top p2') m2')) by (destruct B1; constructor; [apply vsub_in; assumption | assumption]).
  repeat split; cbn [fst snd]; try assumption.
  assert (Ht : forall a a', beds a a' -> beds (map (prevent_tiny_negatives e 0) a) (map (prevent_tiny_negatives e' 0) a')) by (intros a a' Ha; induction Ha; cbn [map]; constructor; [apply tiny_in; assumption | assumption]).
  apply Ht. destruct (Qltb (exchanged p) 0); [|destruct (Qltb 0 (exchanged p))].
  - apply on_last_in. intros a a' Ha. apply vsub_in. exact Ha. apply vscale_in; assumption. apply arrange_erosion_in; assumption.
  - apply arrange_deposition_in; assumption.
  - exact H3.
Qed.
End Bed.

Section Run.
Variables (u : units) (sp sp' : (nat -> nat -> Q) -> (nat -> Q) -> nat -> Q) (k : cfg) (e : setup).
Hypothesis Hu : proper u.
Hypothesis Hlat : trunk k = true \/ lateral k = Circular.
Let k' := cfg_in u k.
Let e' := setup_in u e.
Notation C := (per_area u).
Notation n := (cells k).
Lemma dz_in x x' : in_unit C x x' -> x' / (rhog (bedp e') * (1 - porosity (bedp e'))) == metre u * (x / (rhog (bedp e) * (1 - porosity (bedp e)))).
Proof.
  intros H. unfold in_unit in H. rewrite H. cbn [e' setup_in bedp rhog porosity]. pose proof (mpos u Hu). pose proof (kpos u Hu). unfold per_area, density.
  unfold Qdiv. rewrite !Qinv_mult_distr. rewrite !Qinv_involutive. set (a := / rhog (bedp e)). set (b := / (1 - porosity (bedp e))). clearbody a b. field. split; lra.
Qed.
Lemma overfull_in c c' : cell_in u c c' -> overfull c' = overfull c.
Proof.
  intros (H1 & H2 & _). unfold overfull. pose proof (cpos u Hu) as Hc. pose proof (prevent1_in C Hc _ _ _ _ _ _ H1 (minus_sum_in C _ _ H2) H2) as (A1 & A2 & A3). fold (exchanged (Bed_Model.pickup c)) (exchanged (Bed_Model.pickup c')) in *.
  destruct (prevent1 (Bed_Model.mass c) _ _) as ((m1, dm1), p1), (prevent1 (Bed_Model.mass c') _ _) as ((m1', dm1'), p1'). cbn [fst snd] in *. apply (exceeds_in C Hc). exact A2. apply top_mass_in, A1.
Qed.
Definition pair_in (x x' : bedcell * list Q) : Prop := cell_in u (fst x) (fst x') /\ times 1 (snd x) (snd x').
Lemma update_in l l' : Forall2 pair_in l l' -> Forall2 (cell_in u) (update (bedp e) l) (update (bedp e') l').
Proof.
  intros H. unfold update. cbv zeta. assert (Ha : existsb (fun cb => overfull (fst cb)) l' = existsb (fun cb => overfull (fst cb)) l).
  { induction H as [|x x' l l' (Hx & _) H IH]; cbn [existsb]. reflexivity. rewrite IH, (overfull_in _ _ Hx). reflexivity. }
  rewrite Ha. generalize (existsb (fun cb => overfull (fst cb)) l) as any. intros any. clear Ha. pose proof (cpos u Hu) as Hc.
  induction H as [|[c b] [c' b'] l l' ((H1 & H2 & H3 & H4) & H5) H IH]; cbn [map]; constructor; [|exact IH]. clear IH. cbn [fst snd] in *.
  assert (He : in_unit C (Bed_Model.max_error (bedp e)) (Bed_Model.max_error (bedp e'))) by (unfold in_unit; reflexivity).
  pose proof (update_cell_in C Hc any _ _ b b' _ _ _ _ He H5 H1 H2) as (A1 & A2 & A3).
  destruct (update_cell any (Bed_Model.max_error (bedp e)) b (Bed_Model.mass c) (Bed_Model.pickup c)) as ((m1, dm1), p1), (update_cell any (Bed_Model.max_error (bedp e')) b' (Bed_Model.mass c') (Bed_Model.pickup c')) as ((m1', dm1'), p1').
  cbn [fst snd] in *. pose proof (dz_in _ _ A2) as Z. unfold in_unit in H3, H4.
  split; [exact A1|]. split; [exact A3|]. cbn [zb zs]. unfold in_unit. change (process_bedupdate (bedp e')) with (process_bedupdate (bedp e)). change (process_tide (bedp e')) with (process_tide (bedp e)).
  destruct (process_bedupdate (bedp e)), (process_tide (bedp e)); split; rewrite ?Z, ?H3, ?H4; ring.
Qed.
Lemma picked_in os os' j : (j < n)%nat -> Forall2 (outcome_in u n) os os' -> times C (picked os j) (picked os' j).
Proof. intros Hj H. unfold picked. induction H as [|o o' os os' (_ & Ho) H IH]; cbn [map]; constructor. apply (Ho j Hj). exact IH. Qed.
Lemma handed_in os os' : Forall2 (outcome_in u n) os os' -> forall cs cs' m, Forall2 (cell_in u) cs cs' -> (m + length cs <= n)%nat ->
  Forall2 pair_in (map (handed os (base e)) (combine (seq m (length cs)) cs)) (map (handed os' (base e')) (combine (seq m (length cs')) cs')).
Proof.
  intros Ho cs cs' m H. revert m. induction H as [|c c' cs cs' (H1 & H2 & H3 & H4) H IH]; intros m Hm; cbn [length seq combine map]; constructor.
  - cbn [length] in Hm. split; cbn [handed fst snd]; [|apply tm_refl]. repeat split; cbn [Bed_Model.mass Bed_Model.pickup zb zs]; try assumption. apply picked_in. lia. exact Ho.
  - apply IH. cbn [length] in Hm. lia.
Qed.
Lemma cells_len cs cs' : Forall2 (cell_in u) cs cs' -> length cs' = length cs.
Proof. induction 1; cbn; congruence. Qed.
Lemma settle_in os os' cs cs' : Forall2 (outcome_in u n) os os' -> Forall2 (cell_in u) cs cs' -> (length cs <= n)%nat -> Forall2 (cell_in u) (settle (bedp e) (base e) os cs) (settle (bedp e') (base e') os' cs').
Proof. intros Ho Hs Hl. unfold settle. apply update_in. apply handed_in; assumption || (cbn; lia). Qed.
Lemma settle_len os cs : length (settle (bedp e) (base e) os cs) = length cs.
Proof. unfold settle, update. cbv zeta. rewrite !map_length, combine_length, seq_length. apply Nat.min_id. Qed.
Lemma top_in s s' j : state_in u n s s' -> times C (top_layer s j) (top_layer s' j).
Proof.
  intros (_ & H & _). unfold top_layer. revert j. induction H as [|c c' cs cs' (H1 & _) H IH]; intros [|j]; cbn [nth_error]; try constructor. destruct H1; cbn [hd]. constructor. assumption. apply IH.
Qed.
Lemma sat_in s s' ws j : (j < n)%nat -> state_in u n s s' -> saturation s' (map (wind_in u) ws) j == saturation s ws j.
Proof.
  intros Hj (H & _). unfold saturation. revert ws. pose proof (cpos u Hu) as Hc. induction H as [|a a' l l' Ha H IH]; intros [|w ws]; cbn [map map2]; unfold qsum; cbn [fold_right]; try reflexivity.
  fold (qsum (map2 (fun a w => if Qltb 0 (wCu w j) then a j / wCu w j else 0) l' (map (wind_in u) ws))). fold (qsum (map2 (fun a w => if Qltb 0 (wCu w j) then a j / wCu w j else 0) l ws)). rewrite IH. apply Qplus_inj_r.
  cbn [wind_in wCu]. rewrite (scaled_lt C 0 (wCu w j) 0 (C * wCu w j) Hc) by ring. destruct (Qltb_spec 0 (wCu w j)); [|reflexivity]. pose proof (Ha j Hj) as E. unfold in_unit in E. rewrite E. field. split; lra.
Qed.
Lemma nth_field l l' i j : Forall2 (field_in C n) l l' -> (j < n)%nat -> nth i l' (fun _ => 0) j == C * nth i l (fun _ => 0) j.
Proof. intros H Hj. revert i. induction H as [|a a' l l' Ha H IH]; intros [|i]; cbn [nth]; try ring. apply (Ha j Hj). apply IH. Qed.
Lemma reads_in s s' ws i w : state_in u n s s' -> exact_in u sp sp' k (speed w) -> class_rel u sp sp' k (reads s ws i w) (reads s' (map (wind_in u) ws) i (wind_in u w)).
Proof.
  intros Hs Hex. split; [reflexivity|]. split; [|exact Hex]. intros j Hj. cbn [reads snd Cu Cuf Cu0 Solver_Model.mass lCt lCu lCuf lw sat wind_in wCu wCuf wCu0].
  pose proof Hs as (H1 & H2 & H3 & H4 & H5). split; [reflexivity|]. split; [reflexivity|]. split; [reflexivity|]. split; [apply tm_nth, top_in, Hs|].
  split; [apply nth_field; assumption|]. split; [apply nth_field; assumption|]. split; [apply nth_field; assumption|]. split; [rewrite (tm_nth _ _ _ (H5 j Hj)); ring | apply sat_in; assumption].
Qed.
Lemma all_reads_in s s' ws : state_in u n s s' -> (forall w, In w ws -> exact_in u sp sp' k (speed w)) -> Forall2 (class_rel u sp sp' k) (all_reads s ws) (all_reads s' (map (wind_in u) ws)).
Proof.
  intros Hs. unfold all_reads. rewrite map_length.
  assert (G : forall vs m, (forall w, In w vs -> exact_in u sp sp' k (speed w)) ->
    Forall2 (class_rel u sp sp' k) (map2 (reads s ws) (seq m (length vs)) vs) (map2 (reads s' (map (wind_in u) ws)) (seq m (length vs)) (map (wind_in u) vs))).
  { induction vs as [|v vs IH]; intros m Hex; cbn [length seq map map2]; constructor. apply reads_in. exact Hs. apply Hex. left. reflexivity. apply IH. intros w Hw. apply Hex. right. exact Hw. }
  apply G.
Qed.
Lemma weights_now_in s s' ws j : state_in u n s s' -> (j < n)%nat -> times 1 (weights_now (bi e) s ws j) (weights_now (bi e') s' (map (wind_in u) ws) j).
Proof.
  intros Hs Hj. unfold weights_now. apply (weights_in C). apply cpos, Hu.
  - destruct Hs as (H & _). induction H as [|a a' l l' Ha H IH]; cbn [map]; constructor. apply (Ha j Hj). exact IH.
  - rewrite map_map. induction ws; cbn [map]; constructor. unfold in_unit. cbn [wind_in wCu]. reflexivity. exact IHws.
  - apply top_in, Hs.
Qed.
Lemma map_fields (g : wind -> nat -> Q) ws : (forall w j, g (wind_in u w) j == C * g w j) -> Forall2 (field_in C n) (map g ws) (map g (map (wind_in u) ws)).
Proof. intros H. rewrite map_map. induction ws; cbn [map]; constructor. intros j _. apply H. exact IHws. Qed.
Lemma step_in t0 s s' ws : state_in u n s s' -> (length (sand s) <= n)%nat -> (forall w, In w ws -> exact_in u sp sp' k (speed w)) ->
  match step sp k e t0 s ws, step sp' k' e' t0 s' (map (wind_in u) ws) with
  | Raise x, Raise x' => x' = x
  | Ok None, Ok None => True
  | Ok (Some (s1, os)), Ok (Some (s1', os')) => state_in u n s1 s1' /\ Forall2 (outcome_in u n) os os' /\ length (sand s1) = length (sand s)
  | _, _ => False
  end.
Proof.
  intros Hs Hl Hex. unfold step.
  pose proof (solve_in u sp sp' k Hu Hlat t0 (bedcomp e) (grains e) (weights_now (bi e) s ws) (weights_now (bi e') s' (map (wind_in u) ws)) _ _ (all_reads_in s s' ws Hs Hex) (fun j Hj => weights_now_in s s' ws j Hs Hj)) as A.
  fold k' in A. change (bedcomp e') with (bedcomp e). change (grains e') with (grains e).
  destruct (solve sp k t0 (bedcomp e) (grains e) (weights_now (bi e) s ws) (all_reads s ws)) as [[[os w]|]|x], (solve sp' k' t0 (bedcomp e) (grains e) (weights_now (bi e') s' (map (wind_in u) ws)) (all_reads s' (map (wind_in u) ws))) as [[[os' w']|]|x']; cbn [bind answer_in] in *; try contradiction; try exact A; try exact I.
  destruct A as (A1 & A2). split; [|split; [exact A1 | cbn [sand]; apply settle_len]]. pose proof Hs as (H1 & H2 & H3 & H4 & H5). split; cbn [air sand oldCu oldCuf oldw].
  - clear - A1. induction A1 as [|o o' os os' (_ & Ho) A IH]; cbn [map]; constructor. intros j Hj. apply (Ho j Hj). exact IH.
  - split. apply settle_in; assumption. split. apply map_fields. reflexivity. split. apply map_fields. reflexivity. exact A2.
Qed.
Lemma run_in_units : forall weather t0 s s', state_in u n s s' -> (length (sand s) <= n)%nat -> (forall ws w, In (Some ws) weather -> In w ws -> exact_in u sp sp' k (speed w)) ->
  run_in u n (run sp k e t0 s weather) (run sp' k' e' t0 s' (weather_in u weather)).
Proof.
  induction weather as [|[ws|] weather IH]; intros t0 s s' Hs Hl Hex; cbn [run weather_in map option_map].
  - split. exact Hs. constructor.
  - fold (weather_in u weather). pose proof (step_in t0 s s' ws Hs Hl (fun w Hw => Hex ws w (or_introl eq_refl) Hw)) as A.
    destruct (step sp k e t0 s ws) as [[[s1 os]|]|x], (step sp' k' e' t0 s' (map (wind_in u) ws)) as [[[s1' os']|]|x']; cbn [bind] in *; try contradiction; try exact A; try exact I.
    destruct A as (A1 & A2 & A3). specialize (IH false s1 s1' A1 ltac:(lia) (fun vs w Hv Hw => Hex vs w (or_intror Hv) Hw)). unfold run_in in IH.
    destruct (run sp k e false s1 weather) as [[[s2 t]|]|x], (run sp' k' e' false s1' (weather_in u weather)) as [[[s2' t']|]|x']; cbn [bind] in *; try contradiction; try exact IH; try exact I.
    destruct IH as (I1 & I2). split. exact I1. constructor; assumption.
  - fold (weather_in u weather). specialize (IH false s s' Hs Hl (fun vs w Hv Hw => Hex vs w (or_intror Hv) Hw)). unfold run_in in IH.
    destruct (run sp k e false s weather) as [[[s2 t]|]|x], (run sp' k' e' false s' (weather_in u weather)) as [[[s2' t']|]|x']; cbn [bind] in *; try contradiction; try exact IH; try exact I.
    destruct IH as (I1 & I2). split. exact I1. constructor. constructor. exact I2.
Qed.
End Run.

(** ** As properties *)
Lemma units_step u sp sp' k t0 b dist init fs : proper u -> trunk k = true \/ lateral k = Circular -> (forall g, In g fs -> exact_in u sp sp' k (fst g)) ->
  answer_in u (number_of_cells k) (solve sp k t0 b dist init fs) (solve sp' (cfg_in u k) t0 b dist init (map (class_in u) fs)).
Proof.
  intros Hu Hl Hex. rewrite <- cells_eq. apply solve_in; try assumption; [|intros; apply tm_refl].
  induction fs as [|g fs IH]; cbn [map]; constructor. split; [reflexivity|]. split; [apply input_in_rel | apply Hex; left; reflexivity]. apply IH. intros h Hh. apply Hex. right. exact Hh.
Qed.
Lemma units_run u sp sp' k e weather t0 s s' : proper u -> trunk k = true \/ lateral k = Circular -> state_in u (number_of_cells k) s s' -> length (sand s) = number_of_cells k ->
  (forall ws w, In (Some ws) weather -> In w ws -> exact_in u sp sp' k (speed w)) ->
  run_in u (number_of_cells k) (run sp k e t0 s weather) (run sp' (cfg_in u k) (setup_in u e) t0 s' (weather_in u weather)).
Proof. intros Hu Hl Hs Hn Hex. rewrite <- cells_eq in *. apply run_in_units; try assumption. lia. Qed.
Lemma units_transient u sp sp' k t0 b dist init fs : proper u -> trunk k = true -> (forall g, In g fs -> exact_in u sp sp' k (fst g)) ->
  answer_in u (number_of_cells k) (solve sp k t0 b dist init fs) (solve sp' (cfg_in u k) t0 b dist init (map (class_in u) fs)).
Proof. intros Hu Ht. apply units_step; [exact Hu | left; exact Ht]. Qed.
Lemma units_steady u sp sp' k t0 b dist init fs : proper u -> trunk k = false -> lateral k = Circular -> (forall g, In g fs -> exact_in u sp sp' k (fst g)) ->
  answer_in u (number_of_cells k) (solve sp k t0 b dist init fs) (solve sp' (cfg_in u k) t0 b dist init (map (class_in u) fs)).
Proof. intros Hu _ Hc. apply units_step; [exact Hu | right; exact Hc]. Qed.
