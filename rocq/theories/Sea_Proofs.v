(** Lemmas about the water level and the waves. *)
From Coq Require Import QArith ZArith Qround Lia Lqa List Bool Arith Setoid Sorting.
From Verif Require Import Base Num Utils_Model Utils_Spec Utils_Proofs Hydro_Model Hydro_Spec Hydro_Proofs Sea_Model Sea_Spec.
Import ListNotations.
Open Scope Q_scope.

(** * Files *)
Lemma last_cons {A} (l : list A) (a b : A) : last (b :: l) a = last l b.
Proof. revert a b. induction l as [|d l IH]; intros a b; [reflexivity|]. change (last (d :: l) a = last (d :: l) b). rewrite !IH. reflexivity. Qed.
Lemma last_in {A} (l : list A) (a : A) : In (last l a) (a :: l).
Proof. revert a. induction l as [|b l IH]; intros a; [left; reflexivity|]. rewrite last_cons. right. apply IH. Qed.
Lemma last_of_sorted first rest : series (first :: rest) -> xmax first rest == fst (last rest first).
Proof.
  intros Hs. apply Qle_antisym; [|apply (xmax_all first rest Hs), last_in].
  assert (G : forall l a, series (a :: l) -> forall y, In y (fst a :: map fst l) -> y <= fst (last l a)).
  { clear. induction l as [|b l IH]; intros a H y Hy. destruct Hy as [<- | []]. apply Qle_refl. rewrite last_cons. apply StronglySorted_inv in H. destruct H as [H Hf]. destruct Hy as [<- | Hy].
    - rewrite Forall_forall in Hf. apply Qle_trans with (fst b). apply Qlt_le_weak, Hf. left. reflexivity. apply IH. exact H. left. reflexivity.
    - apply IH; assumption. }
  apply (G rest first Hs). unfold xmax. destruct (qmaxl_in (fst first) (map fst rest)) as [<- | H]; [left; reflexivity | right; exact H].
Qed.
(** Between the first and the last point there is a pair of successive points. *)
Lemma pair_around (l : list (Q * Q)) : forall a y, fst a <= y -> y < fst (last l a) -> exists pre p q post, a :: l = pre ++ p :: q :: post /\ fst p <= y <= fst q.
Proof.
  induction l as [|b l IH]; intros a y H1 H2. cbn in H2. lra. rewrite last_cons in H2. destruct (Qlt_le_dec y (fst b)) as [L | L].
  - exists [], a, b, l. split. reflexivity. lra.
  - destruct (IH b y L H2) as (pre & p & q & post & E & B). exists (a :: pre), p, q, post. rewrite E. split; [reflexivity | exact B].
Qed.
Lemma reads_total s t : sorted_file s -> exists v, reads s t v.
Proof.
  intros Hs. destruct s as (first, rest). unfold sorted_file in Hs. cbn [fst snd] in Hs. set (w := fst (last rest first) - fst first + 1).
  assert (Hw : 0 < w). { pose proof (xmax_all first rest Hs first (or_introl eq_refl)). rewrite (last_of_sorted _ _ Hs) in H. unfold w. lra. }
  pose proof (qmod_range (t - fst first) w Hw) as (M0 & M1). set (y := fst first + qmod (t - fst first) w).
  assert (Ey : y == t + inject_Z (- Qfloor ((t - fst first) / w)) * w). { unfold y, qmod. rewrite inject_Z_opp. ring. }
  destruct (Qlt_le_dec y (fst (last rest first))) as [L | L].
  - destruct (pair_around rest first y ltac:(unfold y; lra) L) as (pre & p & q & post & E & B).
    destruct (Qlt_le_dec (fst p) (fst q)) as [D | D].
    + exists (snd p + (snd q - snd p) * (y - fst p) / (fst q - fst p)), (- Qfloor ((t - fst first) / w))%Z, y. split. exact Ey. left. exists pre, p, q, post. split. exact E. split. exact B. unfold on_line. field. lra.
    + exfalso. assert (fst p < fst q); [|lra]. unfold series in Hs. rewrite E, map_app in Hs. clear -Hs. induction pre as [|z pre IH]; [|apply StronglySorted_inv in Hs; apply IH, Hs]. cbn in Hs. apply StronglySorted_inv in Hs. destruct Hs as [_ Hf]. rewrite Forall_forall in Hf. apply Hf. left. reflexivity.
  - exists (snd (last rest first)), (- Qfloor ((t - fst first) / w))%Z, y. split. exact Ey. right. split; [|reflexivity]. split. exact L. cbn [fst snd]. unfold y, w in *. lra.
Qed.
Lemma interp_circular_eq x y first rest : x == y -> interp_circular x first rest == interp_circular y first rest.
Proof.
  intros E. unfold interp_circular, interp. apply interp_proper. unfold qmod. assert (F : (x - xmax first rest - 1) / (xmax first rest - xmin first rest + 1) == (y - xmax first rest - 1) / (xmax first rest - xmin first rest + 1)) by (rewrite E; reflexivity).
  rewrite (Qfloor_comp _ _ F). rewrite E. reflexivity.
Qed.
Lemma reads_at s t v : sorted_file s -> reads s t v -> at_time t s == v.
Proof.
  intros Hs (k & y & Ey & H). destruct s as (first, rest). unfold sorted_file in Hs. cbn [fst snd] in *. unfold at_time. cbn [fst snd].
  rewrite <- (circular_periodic first rest Hs t k). rewrite (interp_circular_eq _ y). 2: { rewrite Ey, (last_of_sorted _ _ Hs), (xmin_first _ _ Hs). ring. }
  destruct H as [(pre & a & b & post & E & (Ha & Hb) & L) | ((L1 & L2) & ->)].
  - pose proof (circular_inside first rest Hs y pre a b post E Ha Hb) as C. assert (D : fst a < fst b).
    { unfold series in Hs. rewrite E, map_app in Hs. clear -Hs. induction pre as [|z pre IH]; [|apply StronglySorted_inv in Hs; apply IH, Hs]. cbn in Hs. apply StronglySorted_inv in Hs. destruct Hs as [_ Hf]. rewrite Forall_forall in Hf. apply Hf. left. reflexivity. }
    unfold on_line in *. apply (Qmult_inj_r _ _ (fst b - fst a)). lra. lra.
  - apply (circular_hold first rest Hs); rewrite (last_of_sorted _ _ Hs); assumption.
Qed.
Lemma qmin_proper a a' b b' : a == a' -> b == b' -> qmin a b == qmin a' b'.
Proof. intros Ea Eb. unfold qmin. destruct (Qle_bool_spec a b), (Qle_bool_spec a' b'); lra. Qed.
Lemma files_followed h t row c : (forall s, tide_file h = Some s -> sorted_file s) -> (forall s1 s2, wave_file h = Some (s1, s2) -> sorted_file s1 /\ sorted_file s2) -> In c (interpolate h t row) -> follows_files h t c.
Proof.
  intros Hf Hw Hc. assert (ET : exists c0, In c0 row /\ Tp c = wave_period h t c0 /\ wave_mask c = wave_mask c0).
  { unfold interpolate in Hc. apply in_map_iff in Hc. destruct Hc as (c2 & <- & H). destruct (process_runup h).
    - destruct (map (tide_and_waves h t) row) as [|first rest] eqn:E1; [destruct H|]. rewrite <- E1 in H. apply in_map_iff in H. destruct H as (c1 & <- & H). apply in_map_iff in H. destruct H as (c & <- & H). exists c. split. exact H.
      unfold run_up. destruct (stockdon h (Hs first) (Tp first)) as [[e sg] r]. split; reflexivity.
    - apply in_map_iff in H. destruct H as (c & <- & H). exists c. split. exact H. split; reflexivity. }
  destruct ET as (c1 & _ & ET & EM). apply interp_cells in Hc. destruct Hc as (c0 & _ & E1 & E2 & E3 & _ & ES & EH & _ & _ & _ & EX). unfold follows_files, masked. split; [|split; [|split]].
  - intros Hp. split. intros s v Es Hr. rewrite ES. unfold still_level. rewrite Hp, Es. unfold mask_value. rewrite (reads_at _ _ _ (Hf _ Es) Hr), E3. ring. intros En. rewrite ES. unfold still_level. rewrite Hp, En. unfold mask_value. rewrite E3. ring.
  - intros Hp. rewrite ES. unfold still_level. rewrite Hp. reflexivity.
  - intros Hp s1 s2 v1 v2 Es R1 R2. destruct (Hw _ _ Es) as (S1 & S2). split; [|split].
    + rewrite EH. unfold wave_height. rewrite Hp, Es. unfold mask_value. rewrite E2. rewrite (qmin_proper _ (gamma h * qmax 0 (SWL c - zb c)) _ v1). ring. rewrite E1. ring. apply reads_at; assumption.
    + rewrite ET. unfold wave_period. rewrite Hp, Es. unfold mask_value. rewrite EM, (reads_at _ _ _ S2 R2). ring.
    + rewrite EX, Hp, Es. unfold mask_value. rewrite E2. rewrite (qmin_proper _ (gamma h * qmax 0 (TWL c - zb c)) _ v1). ring. ring. apply reads_at; assumption.
  - intros Hp. rewrite EH, ET. unfold wave_height, wave_period. destruct (process_wave h), (wave_file h) as [[s1 s2]|]; try (split; reflexivity). destruct Hp as [D | D]; discriminate D.
Qed.
Lemma files_all h t row c : (forall s, tide_file h = Some s -> sorted_file s) -> (forall s1 s2, wave_file h = Some (s1, s2) -> sorted_file s1 /\ sorted_file s2) -> In c (interpolate h t row) ->
  follows_files h t c /\ (forall s, tide_file h = Some s -> exists v, reads s t v) /\ (forall s1 s2, wave_file h = Some (s1, s2) -> (exists v, reads s1 t v) /\ exists v, reads s2 t v).
Proof. intros Hf Hw Hc. split. apply (files_followed h t row c Hf Hw Hc). split. intros s E. apply reads_total, Hf, E. intros s1 s2 E. destruct (Hw _ _ E). split; apply reads_total; assumption. Qed.

(** * Coupled models *)
Section Coupled.
  Context (h : hydro) (x : coupling) (near : list (nat * nat) -> nat * nat -> nat * nat) (ny nx : nat) (eps : Q).
  Lemma positions_in p : In p (positions ny nx) <-> on_grid ny nx p.
  Proof.
    unfold positions, on_grid. rewrite in_flat_map. destruct p as (i, j). cbn [fst snd]. split.
    - intros (a & Ha & H). apply in_map_iff in H. destruct H as (b & E & Hb). injection E as -> ->. apply in_seq in Ha. apply in_seq in Hb. lia.
    - intros (Hi & Hj). exists i. split. apply in_seq. lia. apply in_map. apply in_seq. lia.
  Qed.
  Lemma distance_zero p q : (distance2 p q <= 0)%Z -> p = q.
  Proof. unfold distance2. destruct p as (a, b), q as (c, d). cbn [fst snd]. intros H. pose proof (Z.square_nonneg (Z.of_nat a - Z.of_nat c)) as S1. pose proof (Z.square_nonneg (Z.of_nat b - Z.of_nat d)) as S2.
    assert (E1 : ((Z.of_nat a - Z.of_nat c) * (Z.of_nat a - Z.of_nat c) = 0)%Z) by lia. assert (E2 : ((Z.of_nat b - Z.of_nat d) * (Z.of_nat b - Z.of_nat d) = 0)%Z) by lia. apply Z.mul_eq_0 in E1. apply Z.mul_eq_0 in E2. f_equal; lia. Qed.
  Lemma distance_self p : distance2 p p = 0%Z.
  Proof. unfold distance2. lia. Qed.
  Lemma wet_cells_in g p : no_tide_mask ny nx g -> (In p (wet_cells ny nx eps g) <-> on_grid ny nx p /\ wet eps (g (fst p) (snd p))).
  Proof.
    intros Hm. unfold wet_cells. rewrite filter_In, positions_in. split; intros (H1 & H2); (split; [exact H1|]); destruct p as (i, j); cbn [fst snd] in *; pose proof (unmasked_value _ (zs (g i j)) (Hm i j H1)) as E; unfold imposed, wet in *; cbn [fst snd] in *;
      destruct (Qltb_spec (2 * eps) (mask_value (tide_mask (g i j)) (zs (g i j)) - zb (g i j))); try reflexivity; try discriminate; lra.
  Qed.
  (** What the later parts of a step leave alone. *)
  Lemma later_parts t g i j : let c := finish h t (runup_step h x (wave_step h x t g) i j) in
    SWL c = SWL (g i j) /\ zb c = zb (g i j) /\ tide_mask c = tide_mask (g i j) /\ wave_mask c = wave_mask (g i j) /\ zs c = (if Qltb (SWL (g i j)) (zb (g i j)) then zb (g i j) else SWL (g i j)) /\
    Hs c = Hs (wave_step h x t g i j) /\ Tp c = Tp (wave_step h x t g i j).
  Proof.
    intros c. assert (W : forall a b, SWL (wave_step h x t g a b) = SWL (g a b) /\ zb (wave_step h x t g a b) = zb (g a b) /\ tide_mask (wave_step h x t g a b) = tide_mask (g a b) /\ wave_mask (wave_step h x t g a b) = wave_mask (g a b)).
    { intros a b. unfold wave_step. destruct (negb (Hs_ext x) && negb (Tp_ext x)); repeat split; reflexivity. }
    destruct (W i j) as (W1 & W2 & W3 & W4). unfold c, runup_step. destruct (process_runup h); [destruct (Hs_ext x)|].
    - unfold runup_each. destruct (stockdon h (Hs (wave_step h x t g i j)) (Tp (wave_step h x t g i j))) as [[e sg] r]. cbn. rewrite W1, W2, W3, W4. repeat split.
    - unfold run_up. destruct (stockdon h (Hs (wave_step h x t g i 0%nat)) (Tp (wave_step h x t g i 0%nat))) as [[e sg] r]. cbn. rewrite W1, W2, W3, W4. repeat split.
    - cbn. rewrite W1, W2, W3, W4. repeat split.
  Qed.
  Lemma one_step t g g' : interpolate_coupled h x near ny nx eps t g = Some g' -> exists g1, level_step h x near ny nx eps t g = Some g1 /\ forall i j, g' i j = finish h t (runup_step h x (wave_step h x t g1) i j).
  Proof. unfold interpolate_coupled. destruct (level_step h x near ny nx eps t g) as [g1|]; [|discriminate]. intros E. injection E as <-. exists g1. split; reflexivity. Qed.
  Lemma level_others t g g1 i j : level_step h x near ny nx eps t g = Some g1 -> zb (g1 i j) = zb (g i j) /\ tide_mask (g1 i j) = tide_mask (g i j) /\ wave_mask (g1 i j) = wave_mask (g i j) /\ Hs (g1 i j) = Hs (g i j) /\ Tp (g1 i j) = Tp (g i j).
  Proof. unfold level_step. destruct (process_tide h); [destruct (zs_ext x); [destruct (wet_cells ny nx eps g) as [|p l]; [discriminate|]|]|]; intros E; injection E as <-; repeat split; reflexivity. Qed.
  Lemma kept t g g' i j : interpolate_coupled h x near ny nx eps t g = Some g' -> zb (g' i j) = zb (g i j) /\ tide_mask (g' i j) = tide_mask (g i j) /\ wave_mask (g' i j) = wave_mask (g i j).
  Proof. intros H. apply one_step in H. destruct H as (g1 & H1 & ->). destruct (level_others _ _ _ i j H1) as (A & B & C & _). destruct (later_parts t g1 i j) as (_ & P2 & P3 & P4 & _). rewrite P2, P3, P4, A, B, C. repeat split. Qed.
  Hypothesis Hn : nearest near.
  Hypothesis Hp : process_tide h = true.
  Hypothesis Hx : zs_ext x = true.
  Lemma coupled_runs t g : no_tide_mask ny nx g -> ((exists g', interpolate_coupled h x near ny nx eps t g = Some g') <-> exists p, on_grid ny nx p /\ wet eps (g (fst p) (snd p))).
  Proof.
    intros Hm. unfold interpolate_coupled, level_step. rewrite Hp, Hx. split.
    - intros (g' & E). destruct (wet_cells ny nx eps g) as [|p l] eqn:W; [discriminate E|]. exists p. apply wet_cells_in; [exact Hm|]. rewrite W. left. reflexivity.
    - intros (p & P). apply wet_cells_in in P; [|exact Hm]. destruct (wet_cells ny nx eps g) as [|q l]; [destruct P|]. eexists. reflexivity.
  Qed.
  Lemma coupled_level t g g' i j : no_tide_mask ny nx g -> interpolate_coupled h x near ny nx eps t g = Some g' -> on_grid ny nx (i, j) ->
    exists p, on_grid ny nx p /\ wet eps (g (fst p) (snd p)) /\ (forall q, on_grid ny nx q -> wet eps (g (fst q) (snd q)) -> (distance2 p (i, j) <= distance2 q (i, j))%Z) /\ SWL (g' i j) == zs (g (fst p) (snd p)) /\ zs (g' i j) == qmax (zb (g i j)) (SWL (g' i j)).
  Proof.
    intros Hm H Hg. apply one_step in H. destruct H as (g1 & H1 & ->). destruct (later_parts t g1 i j) as (P1 & P2 & _ & _ & P5 & _). pose proof (level_others _ _ _ i j H1) as (L1 & _). unfold level_step in H1. rewrite Hp, Hx in H1. destruct (wet_cells ny nx eps g) as [|q0 l] eqn:W; [discriminate H1|].
    injection H1 as <-. rewrite <- W in *. clear L1. destruct (Hn (wet_cells ny nx eps g) (i, j)) as (N1 & N2); [rewrite W; discriminate|]. exists (near (wet_cells ny nx eps g) (i, j)). pose proof (proj1 (wet_cells_in g _ Hm) N1) as (G1 & G2). split. exact G1. split. exact G2.
    split. { intros q Q1 Q2. apply N2. apply wet_cells_in; [exact Hm | split; assumption]. }
    rewrite P5, P1. cbn [with_level SWL zb]. unfold imposed. split. apply unmasked_value. apply Hm. rewrite <- surjective_pairing. exact G1.
    set (v := mask_value _ _). unfold qmax. destruct (Qltb_spec v (zb (g i j))), (Qle_bool_spec (zb (g i j)) v); lra.
  Qed.
  Lemma coupled_wet t g g' i j : 0 <= eps -> no_tide_mask ny nx g -> interpolate_coupled h x near ny nx eps t g = Some g' -> on_grid ny nx (i, j) -> wet eps (g i j) -> SWL (g' i j) == zs (g i j) /\ zs (g' i j) == zs (g i j).
  Proof.
    intros He Hm H Hg Hw. destruct (coupled_level t g g' i j Hm H Hg) as (p & P1 & P2 & P3 & P4 & P5). specialize (P3 (i, j) Hg Hw). rewrite distance_self in P3. apply distance_zero in P3. subst p. cbn [fst snd] in *. split. exact P4.
    rewrite P5. unfold wet in Hw. unfold qmax. destruct (Qle_bool_spec (zb (g i j)) (SWL (g' i j))); lra.
  Qed.
  Lemma coupled_steps ts : forall g g' i j, 0 <= eps -> no_tide_mask ny nx g -> steps_coupled h x near ny nx eps ts g = Some g' -> ts <> [] -> on_grid ny nx (i, j) -> wet eps (g i j) -> SWL (g' i j) == zs (g i j) /\ zs (g' i j) == zs (g i j).
  Proof.
    induction ts as [|t ts IH]; intros g g' i j He Hm H Hne Hg Hw; [contradiction|]. cbn [steps_coupled] in H. destruct (interpolate_coupled h x near ny nx eps t g) as [g1|] eqn:E1; [|discriminate H].
    destruct (coupled_wet t g g1 i j He Hm E1 Hg Hw) as (A & B). destruct ts as [|t2 ts]. injection H as <-. split; assumption.
    assert (Hm1 : no_tide_mask ny nx g1) by (intros a b Hab; destruct (kept t g g1 a b E1) as (_ & -> & _); apply Hm, Hab).
    destruct (IH g1 g' i j He Hm1 H ltac:(discriminate) Hg) as (C & D). { unfold wet in *. destruct (kept t g g1 i j E1) as (-> & _). lra. } split; lra.
  Qed.
End Coupled.
Lemma coupled_waves h x near ny nx eps ts : forall g g' i j, (Hs_ext x = true \/ Tp_ext x = true) -> no_wave_mask ny nx g -> steps_coupled h x near ny nx eps ts g = Some g' -> on_grid ny nx (i, j) -> Hs (g' i j) == Hs (g i j) /\ Tp (g' i j) == Tp (g i j).
Proof.
  induction ts as [|t ts IH]; intros g g' i j Hx Hm H Hg; cbn [steps_coupled] in H. injection H as <-. split; reflexivity. destruct (interpolate_coupled h x near ny nx eps t g) as [g1|] eqn:E1; [|discriminate H].
  assert (Hm1 : no_wave_mask ny nx g1) by (intros a b Hab; destruct (kept h x near ny nx eps t g g1 a b E1) as (_ & _ & ->); apply Hm, Hab).
  destruct (IH g1 g' i j Hx Hm1 H Hg) as (C & D). rewrite C, D. apply one_step in E1. destruct E1 as (g0 & E0 & ->). destruct (later_parts h x t g0 i j) as (_ & _ & _ & _ & _ & P6 & P7). rewrite P6, P7. destruct (level_others h x near ny nx eps t g g0 i j E0) as (_ & _ & L3 & L4 & L5).
  unfold wave_step. assert (N : negb (Hs_ext x) && negb (Tp_ext x) = false) by (destruct Hx as [-> | ->]; [reflexivity | apply andb_false_r]). rewrite N. cbn [with_waves Hs Tp]. rewrite L3, L4, L5. split; apply unmasked_value, Hm, Hg.
Qed.
Lemma coupled_runup h x near ny nx eps t g g' i j : Hs_ext x = true -> process_runup h = true -> interpolate_coupled h x near ny nx eps t g = Some g' ->
  R (g' i j) == masked (runup_mask (g i j)) (snd (stockdon h (Hs (g' i j)) (Tp (g' i j)))) /\ TWL (g' i j) == SWL (g' i j) + R (g' i j) /\ DSWL (g' i j) == SWL (g' i j).
Proof.
  intros Hx Hr H. apply one_step in H. destruct H as (g1 & H1 & ->). unfold runup_step. rewrite Hr, Hx. unfold runup_each. set (c := wave_step h x t g1 i j).
  assert (E : runup_mask c = runup_mask (g i j)).
  { unfold c, wave_step, level_step in *. destruct (negb (Hs_ext x) && negb (Tp_ext x)); cbn [with_waves runup_mask]; (destruct (process_tide h); [destruct (zs_ext x); [destruct (wet_cells ny nx eps g) as [|p l]; [discriminate H1|]|]|]); injection H1 as <-; reflexivity. }
  destruct (stockdon h (Hs c) (Tp c)) as [[e sg] r] eqn:Es. unfold finish. cbn [Hs Tp R TWL SWL DSWL]. rewrite Es. cbn [snd]. rewrite E. unfold mask_value, masked. split; [ring|]. split; reflexivity.
Qed.
Lemma uncoupled_row h near ny nx eps t g : exists g', interpolate_coupled h {| zs_ext := false; Hs_ext := false; Tp_ext := false |} near ny nx eps t g = Some g' /\
  forall i, map (g' i) (seq 0 (S nx)) = interpolate h t (map (g i) (seq 0 (S nx))).
Proof.
  set (x := {| zs_ext := false; Hs_ext := false; Tp_ext := false |}). set (g1 := fun i j => with_level (still_level h t (g i j)) (g i j)).
  assert (E : level_step h x near ny nx eps t g = Some g1). { unfold level_step, g1. cbn [zs_ext x]. destruct (process_tide h) eqn:Ep; [reflexivity|]. unfold still_level. rewrite Ep. reflexivity. }
  assert (W : forall i j, wave_step h x t g1 i j = tide_and_waves h t (g i j)) by (intros i j; reflexivity).
  unfold interpolate_coupled. rewrite E. eexists. split. reflexivity. intros i. cbn beta. unfold interpolate. rewrite map_map. unfold runup_step. destruct (process_runup h).
  - cbn [Hs_ext x]. cbn [seq map]. rewrite !W. f_equal. rewrite !map_map. apply map_ext. intros j. rewrite W. reflexivity.
  - rewrite !map_map. apply map_ext. intros j. rewrite W. reflexivity.
Qed.
Lemma coupled_first h x near ny nx eps t g : nearest near -> process_tide h = true -> zs_ext x = true -> 0 <= eps -> no_tide_mask ny nx g ->
  ((exists p, on_grid ny nx p /\ wet eps (g (fst p) (snd p))) -> exists g', interpolate_coupled h x near ny nx eps t g = Some g') /\
  forall g' i j, interpolate_coupled h x near ny nx eps t g = Some g' -> on_grid ny nx (i, j) -> zb (g' i j) = zb (g i j) /\ (wet eps (g i j) -> SWL (g' i j) == zs (g i j) /\ zs (g' i j) == zs (g i j)) /\
    exists p, on_grid ny nx p /\ wet eps (g (fst p) (snd p)) /\ (forall q, on_grid ny nx q -> wet eps (g (fst q) (snd q)) -> (distance2 p (i, j) <= distance2 q (i, j))%Z) /\ SWL (g' i j) == zs (g (fst p) (snd p)) /\ zs (g' i j) == qmax (zb (g i j)) (SWL (g' i j)).
Proof.
  intros Hn Hp Hx He Hm. split. apply (coupled_runs h x near ny nx eps Hp Hx t g Hm). intros g' i j H Hg. split. apply (kept h x near ny nx eps t g g' i j H). split.
  intros Hw. apply (coupled_wet h x near ny nx eps Hn Hp Hx t g g' i j He Hm H Hg Hw). apply (coupled_level h x near ny nx eps Hn Hp Hx t g g' i j Hm H Hg).
Qed.
Lemma coupled_held h x near ny nx eps ts g g' i j : nearest near -> process_tide h = true -> zs_ext x = true -> 0 <= eps -> no_tide_mask ny nx g -> steps_coupled h x near ny nx eps ts g = Some g' -> ts <> [] -> on_grid ny nx (i, j) -> wet eps (g i j) -> SWL (g' i j) == zs (g i j) /\ zs (g' i j) == zs (g i j).
Proof. intros Hn Hp Hx. apply (coupled_steps h x near ny nx eps Hn Hp Hx). Qed.
