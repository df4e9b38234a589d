(** Many time steps in the same or in changing weather. *)
From Coq Require Import QArith Qpower Lia Lqa List Bool Arith Setoid.
From Verif Require Import Base Num Utils_Model Solver_Model Solver_Spec Linear Solver_Proofs Solver_Iter Solver_Balance Solver_Cases Spinup_Spec Spinup_Proofs.
Import ListNotations.
Open Scope Q_scope.

Lemma qabs_same p q : p == q -> qabs p == qabs q.
Proof. intros E. unfold qabs. destruct (Qle_bool_spec 0 p), (Qle_bool_spec 0 q); lra. Qed.
Lemma difference_same k f f' x x' y y' : same_grid k f f' -> (forall i, (i < number_of_cells k)%nat -> x' i == x i /\ y' i == y i) -> difference k f' x' y' == difference k f x y.
Proof.
  intros Hg H. unfold difference. rewrite !over_inside_sumn. apply sumn_ext. intros r Hr. apply sumn_ext. intros j Hj. rewrite (Hg r (S j)) by lia. rewrite <- cells_eq in H.
  destruct (H (r * S (nx k) + S j)%nat (rc_lt k r (S j) ltac:(lia) ltac:(lia))) as (E1 & E2). apply Qmult_comp. reflexivity. apply qabs_same. unfold at_cell. rewrite E1, E2. reflexivity.
Qed.
Lemma power_S q n : ~ q == 0 -> q ^ Z.of_nat (S n) == q * q ^ Z.of_nat n.
Proof. intros H. rewrite Nat2Z.inj_succ, <- Z.add_1_l, Qpower_plus by exact H. reflexivity. Qed.
Lemma grows_factor k : sensible k -> 0 < 1 + dt k / T k.
Proof. intros (_ & _ & H1 & H2 & _). assert (0 < dt k / T k) by (apply Qlt_shift_div_l; lra). lra. Qed.
Lemma shrink_chain (D : nat -> Q) q n : 0 < q -> (forall m, (m <= n)%nat -> D (S m) * q <= D m) -> D (S n) * q ^ Z.of_nat (S n) <= D 0%nat.
Proof.
  intros Hq. induction n; intros H. specialize (H 0%nat ltac:(lia)). cbn. exact H.
  specialize (IHn ltac:(intros; apply H; lia)). specialize (H (S n) ltac:(lia)). rewrite power_S by lra. assert (P : 0 <= q ^ Z.of_nat (S n)) by (apply Qpower_pos; lra).
  pose proof (mul_le_r _ _ _ P H) as M. apply (Qle_trans _ (D (S (S n)) * q * q ^ Z.of_nat (S n))). apply Qle_lteq. right. ring. eapply Qle_trans; [exact M | exact IHn].
Qed.
Lemma forgets_runs sp sp' k f ts ts' n : trunk k = true -> (forall m, (m <= n)%nat -> solved sp k (ts m)) -> (forall m, (m <= n)%nat -> solved sp' k (ts' m)) -> follow k n ts -> follow k n ts' ->
  (forall m, (m <= n)%nat -> same_weather k (ts m) (ts' m)) -> (forall m, (m <= n)%nat -> same_grid k f (wind_of (ts m))) ->
  difference k f (ct (result_of (ts n))) (ct (result_of (ts' n))) * (1 + dt k / T k) ^ Z.of_nat (S n) <= difference k f (lCt (input_of (ts 0%nat))) (lCt (input_of (ts' 0%nat))).
Proof.
  intros Ht H H' F F' Hw Hg. assert (Hs : sensible k) by (destruct (H 0%nat ltac:(lia)) as ((W1 & _) & _); exact W1).
  set (D := fun m => match m with O => difference k f (lCt (input_of (ts 0%nat))) (lCt (input_of (ts' 0%nat))) | S m => difference k f (ct (result_of (ts m))) (ct (result_of (ts' m))) end).
  apply (shrink_chain D _ n (grows_factor k Hs)). intros m Hm.
  assert (St : difference k f (ct (result_of (ts m))) (ct (result_of (ts' m))) * (1 + dt k / T k) <= difference k f (lCt (input_of (ts m))) (lCt (input_of (ts' m)))).
  { destruct (H m Hm) as (W & Ho & Hc). destruct (H' m Hm) as (W' & Ho' & Hc'). destruct (Hw m Hm) as (Ew & Hi). rewrite Ew in W', Ho'.
    pose proof (forgets_step _ _ _ _ _ _ _ _ _ _ Ht W W' Ho Ho' Hc Hc' Hi) as G. rewrite !(difference_same k f (wind_of (ts m)) _ _ _ _ (Hg m Hm) (fun i _ => conj (Qeq_refl _) (Qeq_refl _))) in G. exact G. }
  destruct m as [|m]; cbn [D]. exact St.
  rewrite (difference_same k f f _ _ _ _ (fun _ _ _ _ => Qeq_refl _) (fun i Hi => conj (F m i ltac:(lia) Hi) (F' m i ltac:(lia) Hi))) in St. exact St.
Qed.

(** The air of the steady state as the result of a time step. *)
Definition from_rest (d : input) (o : outcome) : input := {| Cu := Cu d; Cuf := Cuf d; Cu0 := Cu0 d; mass := mass d; lCt := ct o; lCu := lCu d; lCuf := lCuf d; lw := lw d; sat := sat d |}.
Lemma rest_solves sp k f d w o : trunk k = true -> fully_implicit k -> well_posed sp (steady k) f d w -> solve_fraction sp (steady k) f d w = Ok (Some o) -> converged o = true ->
  solves (cells k) (matrix k f) (rhs k f (from_rest d o) (weight o)) (ct o).
Proof.
  intros Ht Himp W Ho Hc i Hi. destruct (posed_solution _ _ _ _ _ _ W Ho Hc) as (_ & _ & Hsol). pose proof W as (W1 & W2 & W3 & W4 & W5 & W6 & _). destruct (quiet_off k f W5) as (Hoff & Hl & Hq).
  pose proof (Hsol i Hi) as Es. change (cells (steady k)) with (cells k) in *. destruct (rc_of k i Hi) as (r & c & Hr & Hcc & ->). destruct (border_spec k c Hcc) as [[_ Hb] | [_ [H1 H2]]].
  - rewrite border_same by assumption. rewrite Es. change (r * width k + c)%nat with (r * width (steady k) + c)%nat at 1. rewrite !rhs_rc by exact Hcc. cbv zeta. cbn [steady nx onshore onshore_flux constant_onshore_flux offshore offshore_flux constant_offshore_flux from_rest Cu0].
    change (width (steady k)) with (width k). destruct (Nat.eqb_spec c (nx k)). reflexivity. destruct (Nat.eqb_spec c 0). reflexivity. lia.
  - rewrite (row_steps k f Ht W1 Hl) by assumption. rewrite Es. rewrite (rhs_implicit k f (from_rest d o) Himp (weight o) r c Hr H1 H2). rewrite Ht, (Himp Ht). change (r * width k + c)%nat with (r * width (steady k) + c)%nat at 1.
    rewrite (rhs_implicit (steady k) f d W6 (weight o) r c Hr H1 H2). cbn [steady trunk from_rest lCt]. change (width (steady k)) with (width k). change (capacity (from_rest d o)) with (capacity d).
    unfold Ti, tstep. rewrite Ht. cbn [steady trunk T]. unfold at_cell. fold (width k). unfold Qdiv. ring.
Qed.
Lemma to_steady sp sp' k f d w o ts n : trunk k = true -> well_posed sp (steady k) f d w -> solve_fraction sp (steady k) f d w = Ok (Some o) -> converged o = true ->
  (forall m, (m <= n)%nat -> solved sp' k (ts m)) -> follow k n ts -> (forall m, (m <= n)%nat -> wind_of (ts m) = f) ->
  (forall m i, (m <= n)%nat -> (i < number_of_cells k)%nat -> Cu0 (input_of (ts m)) i == Cu0 d i /\ carries (input_of (ts m)) (weight (result_of (ts m))) i == carries d (weight o) i) ->
  difference k f (ct (result_of (ts n))) (ct o) * (1 + dt k / T k) ^ Z.of_nat (S n) <= difference k f (lCt (input_of (ts 0%nat))) (ct o).
Proof.
  intros Ht W Ho Hc H F Hf Hsame. pose proof W as (W1 & W2 & W3 & W4 & W5 & _).
  set (D := fun m => match m with O => difference k f (lCt (input_of (ts 0%nat))) (ct o) | S m => difference k f (ct (result_of (ts m))) (ct o) end).
  apply (shrink_chain D _ n (grows_factor k W1)). intros m Hm.
  assert (St : difference k f (ct (result_of (ts m))) (ct o) * (1 + dt k / T k) <= difference k f (lCt (input_of (ts m))) (ct o)).
  { destruct (H m Hm) as (Wm & Hom & Hcm). rewrite (Hf m Hm) in Wm, Hom. destruct (posed_solution _ _ _ _ _ _ Wm Hom Hcm) as (_ & _ & Sm). pose proof Wm as (M1 & M2 & M3 & M4 & M5 & M6 & _).
    pose proof (forgets_linear k f (input_of (ts m)) (from_rest d o) (weight (result_of (ts m))) (weight o) _ _ Ht M1 M2 M3 M4 M5 M6 Sm (rest_solves sp k f d w o Ht M6 W Ho Hc)) as G. apply G.
    intros i Hi. rewrite cells_eq in Hi. destruct (Hsame m i Hm Hi) as (A & B). split; symmetry; assumption. }
  destruct m as [|m]; cbn [D]. exact St.
  rewrite (difference_same k f f _ _ _ _ (fun _ _ _ _ => Qeq_refl _) (fun i Hi => conj (F m i ltac:(lia) Hi) (Qeq_refl _))) in St. exact St.
Qed.
(** From air without sand the concentrations grow towards the steady state. *)
Lemma builds_up sp sp' k f d w o ts n : trunk k = true -> well_posed sp (steady k) f d w -> solve_fraction sp (steady k) f d w = Ok (Some o) -> converged o = true ->
  (forall m, (m <= n)%nat -> solved sp' k (ts m)) -> follow k n ts -> (forall m, (m <= n)%nat -> wind_of (ts m) = f) ->
  (forall m i, (m <= n)%nat -> (i < number_of_cells k)%nat -> Cu0 (input_of (ts m)) i == Cu0 d i /\ carries (input_of (ts m)) (weight (result_of (ts m))) i == carries d (weight o) i) ->
  (forall i, (i < number_of_cells k)%nat -> lCt (input_of (ts 0%nat)) i == 0) ->
  (forall m i, (m < n)%nat -> (i < number_of_cells k)%nat -> ct (result_of (ts m)) i <= ct (result_of (ts (S m))) i) /\ (forall m i, (m <= n)%nat -> (i < number_of_cells k)%nat -> ct (result_of (ts m)) i <= ct o i).
Proof.
  intros Ht W Ho Hc H F Hf Hsame H0. destruct (posed_solution _ _ _ _ _ _ W Ho Hc) as (Hnn & _ & _). change (cells (steady k)) with (cells k) in Hnn. split.
  - assert (G : forall m, (m < n)%nat -> all_within (number_of_cells k) (lCt (input_of (ts m))) (lCt (input_of (ts (S m)))) -> all_within (number_of_cells k) (ct (result_of (ts m))) (ct (result_of (ts (S m))))).
    { intros m Hm L. destruct (H m ltac:(lia)) as (A1 & A2 & A3). destruct (H (S m) Hm) as (B1 & B2 & B3). rewrite (Hf m ltac:(lia)) in A1, A2. rewrite (Hf (S m) Hm) in B1, B2. apply (order_step sp' sp' k f _ _ _ _ _ _ A1 B1 A2 B2 A3 B3 L); intros i Hi; destruct (Hsame m i ltac:(lia) Hi) as (S1 & S2), (Hsame (S m) i Hm Hi) as (S3 & S4); apply Qle_lteq; right.
      rewrite S1, S3. reflexivity. rewrite S2, S4. reflexivity. }
    induction m; intros i Hm; revert i; apply (G _ Hm); intros i Hi.
    + rewrite (H0 i Hi), (F 0%nat i Hm Hi). destruct (H 0%nat ltac:(lia)) as (A1 & A2 & A3). destruct (posed_solution _ _ _ _ _ _ A1 A2 A3) as (P & _). apply P. rewrite cells_eq. exact Hi.
    + rewrite (F m i ltac:(lia) Hi), (F (S m) i Hm Hi). apply IHm; [lia | exact Hi].
  - assert (Hb : forall m, (m <= n)%nat -> all_within (number_of_cells k) (lCt (input_of (ts m))) (ct o) -> all_within (number_of_cells k) (ct (result_of (ts m))) (ct o)).
    { intros m Hm L. destruct (H m Hm) as (A1 & A2 & A3). rewrite (Hf m Hm) in A1, A2. destruct (posed_solution _ _ _ _ _ _ A1 A2 A3) as (_ & _ & Sn). destruct (posed_good _ _ _ _ _ A1) as (_ & Hinv). pose proof A1 as (M1 & _ & _ & _ & _ & M6 & _ & M8 & _).
      unfold all_within in *. rewrite <- cells_eq in *. apply (inverse_mono k f _ _ Hinv). intros i Hi. rewrite (Sn i Hi), (rest_solves sp k f d w o Ht M6 W Ho Hc i Hi).
      apply rhs_order; try assumption; intros j Hj; destruct (Hsame m j Hm Hj) as (S1 & S2); apply Qle_lteq; right; assumption. }
    induction m; intros i Hm; revert i; apply (Hb _ Hm); intros i Hi. rewrite (H0 i Hi). apply Hnn. rewrite cells_eq. exact Hi. rewrite (F m i Hm Hi). apply IHm; [lia | exact Hi].
Qed.
