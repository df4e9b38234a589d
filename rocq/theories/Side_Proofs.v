(** Proofs about the rows beside the lateral boundaries. *)
From Coq Require Import QArith Lia Lqa List Bool Arith Setoid.
From Verif Require Import Base Num Solver_Model Solver_Spec Linear Solver_Proofs Solver_Iter Side_Spec.
Import ListNotations.
Open Scope Q_scope.

Section Side.
Variables (k : cfg) (f : flow) (r c : nat).
Hypothesis Hb : beside k f r c.
Notation i := (r * S (nx k) + c)%nat.
Lemma side_bounds : (r <= ny k)%nat /\ (1 <= c < nx k)%nat.
Proof. destruct Hb as (_ & H1 & H2 & [-> | (-> & _)]); lia. Qed.
Lemma side_fixed : fixed_row k r = true.
Proof. unfold fixed_row. destruct Hb as (-> & _ & _ & [-> | (-> & _)]); cbn [beq]; rewrite ?Nat.eqb_refl, ?orb_true_r; reflexivity. Qed.
Lemma place_row m e : (e <= nx k)%nat -> ((m * S (nx k) + e) / width k)%nat = m.
Proof. intros He. unfold width. rewrite Nat.div_add_l by lia. rewrite Nat.div_small by lia. lia. Qed.
Lemma place_col m e : (e <= nx k)%nat -> ((m * S (nx k) + e) mod width k)%nat = e.
Proof. intros He. unfold width. rewrite Nat.add_comm, Nat.mod_add by lia. apply Nat.mod_small. lia. Qed.
Lemma flat_here g m : flat k g (m * S (nx k) + c)%nat = g m c.
Proof. destruct side_bounds. unfold flat. rewrite place_row, place_col by lia. reflexivity. Qed.
Lemma not_border : border k c = false.
Proof. destruct side_bounds. unfold border. destruct (Nat.eqb_spec c 0), (Nat.eqb_spec c (nx k)); try lia; reflexivity. Qed.
Lemma side_entry j : (j < cells k)%nat -> matrix k f i j == if Nat.eqb j i then 1 else 0.
Proof.
  intros Hj. destruct side_bounds as (Hr & Hc). pose proof side_fixed as Hf. pose proof not_border as Hn. unfold cells, width in Hj.
  assert (E0 : above 0 (flat k (A0 k f)) i j == if Nat.eqb j i then 1 else 0).
  { unfold above. rewrite Nat.add_0_r. destruct (Nat.eqb j i); [|reflexivity]. rewrite flat_here. unfold A0. rewrite Hf, orb_true_r. reflexivity. }
  assert (E1 : below 1 (fun m => flat k (Am1 k f) (m + 1)%nat) i j == 0).
  { unfold below. destruct (Nat.eqb_spec i (j + 1)) as [E|]; [|reflexivity]. rewrite <- E, flat_here. unfold Am1. rewrite Hf. reflexivity. }
  assert (E2 : below 2 (fun m => flat k (Am2 k f) (m + 2)%nat) i j == 0).
  { unfold below. destruct (Nat.eqb_spec i (j + 2)) as [E|]; [|reflexivity]. rewrite <- E, flat_here. unfold Am2. destruct (Nat.eqb_spec c (nx k)); [lia | reflexivity]. }
  assert (E3 : above 1 (flat k (Ap1 k f)) i j == 0).
  { unfold above. destruct (Nat.eqb j (i + 1)); [|reflexivity]. rewrite flat_here. unfold Ap1. rewrite Hf. reflexivity. }
  assert (E4 : above 2 (flat k (Ap2 k f)) i j == 0).
  { unfold above. destruct (Nat.eqb j (i + 2)); [|reflexivity]. rewrite flat_here. unfold Ap2. destruct (Nat.eqb_spec c 0); [lia | reflexivity]. }
  unfold matrix. cbv zeta. destruct (Nat.eqb_spec (ny k) 0) as [Z|Z]; [rewrite E0, E1, E2, E3, E4; ring|].
  assert (E5 : below (width k * ny k) (flat k (Apx k f)) i j == 0).
  { unfold below, width. destruct (Nat.eqb_spec i (j + S (nx k) * ny k)) as [E|]; [|reflexivity].
    assert (r = ny k) as Er by (destruct (Nat.eq_dec r (ny k)); [assumption|]; assert ((r + 1) * S (nx k) <= ny k * S (nx k))%nat by (apply Nat.mul_le_mono_r; lia); lia). assert (j = (0 * S (nx k) + c)%nat) as -> by (subst r; lia). rewrite flat_here. unfold Apx, fixed_row. destruct Hb as (-> & _). rewrite orb_true_r. reflexivity. }
  assert (E6 : below (width k) (fun m => flat k (Amx k f) (width k + m)%nat) i j == 0).
  { unfold below. destruct (Nat.eqb_spec i (j + width k)) as [E|]; [|reflexivity]. rewrite (Nat.add_comm (width k) j), <- E, flat_here. unfold Amx. rewrite Hf, orb_true_r. reflexivity. }
  assert (E7 : above (width k) (fun m => flat k (Apx k f) (width k + m)%nat) i j == 0).
  { unfold above. destruct (Nat.eqb_spec j (i + width k)) as [E|]; [|reflexivity]. destruct Hb as (_ & _ & _ & [R | (R & U)]).
    - unfold width in E. exfalso. subst r. nia.
    - replace (width k + i)%nat with (1 * S (nx k) + c)%nat by (rewrite R; unfold width; lia). rewrite flat_here. unfold Apx. destruct (border k c || fixed_row k 1); [reflexivity|].
      unfold basepx, upw. destruct (Qle_bool_spec 0 (un f 1%nat c)) as [L|L]; [ring | lra]. }
  assert (E8 : above (width k * ny k) (flat k (Amx k f)) i j == 0).
  { unfold above. destruct (Nat.eqb j (i + width k * ny k)); [|reflexivity]. rewrite flat_here. unfold Amx. rewrite Hf, orb_true_r. reflexivity. }
  rewrite E0, E1, E2, E3, E4, E5, E6, E7, E8. ring.
Qed.
Lemma side_solution y x : is_solution (number_of_cells k) (matrix k f) y x -> x i == y i.
Proof.
  intros H. rewrite <- cells_eq in H. destruct side_bounds as (Hr & Hc). assert (Hi : (i < cells k)%nat) by (unfold cells, width; nia). rewrite <- (H i Hi).
  change (row_times (cells k) (matrix k f) x i) with (mulv (cells k) (matrix k f) x i). unfold mulv.
  rewrite (sumn_single (cells k) i _ Hi). rewrite (side_entry i Hi), Nat.eqb_refl. ring.
  intros j Hj Hn. rewrite (side_entry j Hj). destruct (Nat.eqb_spec j i); [contradiction | ring].
Qed.
Lemma side_rhs d w : trunk k = true -> alpha k == 1 -> rhs k f d w i == lCt d i + w i * capacity d i * (dt k / T k).
Proof.
  intros Ht Ha. destruct side_bounds as (Hr & Hc). unfold rhs. cbv zeta. rewrite place_col, place_row by lia. destruct (Nat.eqb_spec c (nx k)), (Nat.eqb_spec c 0); try lia. rewrite Ht, Ha.
  unfold source, Ti, tstep, capacity. rewrite Ht. ring.
Qed.
Lemma side_rhs_steady d w : trunk k = false -> rhs k f d w i == w i * capacity d i / T k.
Proof.
  intros Ht. destruct side_bounds as (Hr & Hc). unfold rhs. cbv zeta. rewrite place_col, place_row by lia. destruct (Nat.eqb_spec c (nx k)), (Nat.eqb_spec c 0); try lia. rewrite Ht.
  unfold source, Ti, tstep, capacity. rewrite Ht. unfold Qdiv. ring.
Qed.
End Side.

Lemma side_step k f d w x r c : beside k f r c -> trunk k = true -> alpha k == 1 -> is_solution (number_of_cells k) (matrix k f) (rhs k f d w) x ->
  at_cell k x r c == at_cell k (lCt d) r c + at_cell k w r c * at_cell k (capacity d) r c * (dt k / T k).
Proof. intros Hb Ht Ha H. unfold at_cell. rewrite (side_solution k f r c Hb _ _ H). apply side_rhs; assumption. Qed.
Lemma side_grows k f d w x r c : beside k f r c -> trunk k = true -> alpha k == 1 -> steps_of k f d w x ->
  forall m, at_cell k (x m) r c == at_cell k (x 0%nat) r c + inject_Z (Z.of_nat m) * (at_cell k w r c * at_cell k (capacity d) r c * (dt k / T k)).
Proof.
  intros Hb Ht Ha H. induction m as [|m IH]. change (inject_Z (Z.of_nat 0)) with 0. ring.
  rewrite (side_step k f _ w _ r c Hb Ht Ha (H m)). cbn [lCt with_air]. rewrite IH, Nat2Z.inj_succ, <- Z.add_1_r, inject_Z_plus. change (inject_Z 1) with 1. unfold at_cell. change (capacity (with_air d (x m))) with (capacity d). ring.
Qed.
Lemma side_steady k f d w x r c : beside k f r c -> trunk k = false -> is_solution (number_of_cells k) (matrix k f) (rhs k f d w) x ->
  at_cell k x r c == at_cell k w r c * at_cell k (capacity d) r c / T k.
Proof. intros Hb Ht H. unfold at_cell. rewrite (side_solution k f r c Hb _ _ H). apply side_rhs_steady; assumption. Qed.
