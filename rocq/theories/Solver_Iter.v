(** Lemmas about the right hand side, the removal of negative concentrations and the iteration of the solvers. *)
From Coq Require Import QArith Lia Lqa List Bool Arith Setoid.
From Verif Require Import Base Num Utils_Model Solver_Model Solver_Spec Linear Solver_Proofs.
Import ListNotations.
Open Scope Q_scope.

Lemma cells_eq k : cells k = number_of_cells k.
Proof. unfold cells, number_of_cells, width. lia. Qed.
Lemma solves_iff n A y x : solves n A y x <-> is_solution n A y x.
Proof. reflexivity. Qed.

(** * The right hand side *)
Lemma rhs_rc k f d w r c : (c <= nx k)%nat ->
  rhs k f d w (r * width k + c) =
  let i := (r * width k + c)%nat in
  if Nat.eqb c (nx k) then prescribed (onshore k) (onshore_flux k) (constant_onshore_flux k) (Cu0 d i) (uu f r c)
  else if Nat.eqb c 0 then prescribed (offshore k) (offshore_flux k) (constant_offshore_flux k) (Cu0 d i) (uu f r c)
  else if trunk k then lCt d i + alpha k * source k (w i) (Cu d i) (Cuf d i) (sat d i) + (1 - alpha k) * explicit k f d i
  else source k (w i) (Cu d i) (Cuf d i) (sat d i).
Proof.
  intros Hc. unfold rhs. assert (H1 : ((r * width k + c) / width k = r)%nat).
  { unfold width. rewrite Nat.div_add_l, Nat.div_small, Nat.add_0_r by lia. reflexivity. }
  assert (H2 : ((r * width k + c) mod width k = c)%nat). { unfold width. rewrite Nat.add_comm, Nat.mod_add, Nat.mod_small by lia. reflexivity. }
  rewrite H1, H2. reflexivity.
Qed.
Lemma source_eq k d w i : source k w (Cu d i) (Cuf d i) (sat d i) == Ti k * (w * capacity d i).
Proof. unfold source, capacity. ring. Qed.
Lemma prescribed_nn b a m c u : 0 <= a -> 0 <= m -> 0 <= c -> 0 < u -> 0 <= prescribed b a m c u.
Proof. intros. destruct b; cbn [prescribed]; try lra. apply mul_nn; assumption. apply Qle_shift_div_l. assumption. lra. Qed.

Section Rhs.
Variables (k : cfg) (f : flow) (d : input).
Hypothesis Hs : sensible k.
Hypothesis Himp : fully_implicit k.
Hypothesis Hin : nonnegative_input k d.
Lemma rhs_implicit w r c : (r <= ny k)%nat -> (1 <= c)%nat -> (c < nx k)%nat -> let i := (r * width k + c)%nat in
  rhs k f d w i == (if trunk k then lCt d i else 0) + Ti k * (w i * capacity d i).
Proof.
  intros Hr H1 H2 i. unfold i. rewrite rhs_rc by lia. cbv zeta. fold i. destruct (Nat.eqb_spec c (nx k)); [lia|]. destruct (Nat.eqb_spec c 0); [lia|].
  destruct (trunk k) eqn:E; rewrite source_eq; [|ring]. rewrite (Himp E). ring.
Qed.
Lemma input_at r c : (r <= ny k)%nat -> (c <= nx k)%nat -> let i := (r * width k + c)%nat in 0 <= lCt d i /\ 0 <= Cu0 d i /\ 0 <= capacity d i /\ 0 <= Cu d i /\ 0 <= mass d i.
Proof. intros Hr Hc i. apply Hin. rewrite <- cells_eq. apply rc_lt; assumption. Qed.
Lemma rhs_nonneg w : nonnegative_ends k f -> (forall i, (i < cells k)%nat -> 0 <= w i) -> forall i, (i < cells k)%nat -> 0 <= rhs k f d w i.
Proof.
  intros (E1 & E2 & E3 & E4 & E5) Hw i Hi. destruct (rc_of k i Hi) as (r & c & Hr & Hc & ->). destruct (input_at r c Hr Hc) as (I1 & I2 & I3 & I4 & I5).
  destruct (border_spec k c Hc) as [[_ Hb] | [_ [H1 H2]]].
  - rewrite rhs_rc by exact Hc. cbv zeta. destruct (Nat.eqb_spec c (nx k)). apply prescribed_nn; auto.
    destruct (Nat.eqb_spec c 0). apply prescribed_nn; auto. lia.
  - rewrite rhs_implicit by assumption. pose proof (mul_nn _ _ (Hw _ Hi) I3). pose proof (Ti_pos k Hs). pose proof (mul_nn (Ti k) _ ltac:(lra) H).
    destruct (trunk k); lra.
Qed.
Lemma rhs_mono w w' : (forall i, (i < cells k)%nat -> w i <= w' i) -> forall i, (i < cells k)%nat -> rhs k f d w i <= rhs k f d w' i.
Proof.
  intros Hw i Hi. destruct (rc_of k i Hi) as (r & c & Hr & Hc & ->). destruct (input_at r c Hr Hc) as (I1 & I2 & I3 & I4 & I5).
  destruct (border_spec k c Hc) as [[_ Hb] | [_ [H1 H2]]].
  - rewrite !rhs_rc by exact Hc. cbv zeta. destruct (Nat.eqb_spec c (nx k)). apply Qle_refl. destruct (Nat.eqb_spec c 0). apply Qle_refl. lia.
  - rewrite !rhs_implicit by assumption. pose proof (mul_le_r _ _ _ I3 (Hw _ Hi)). pose proof (Ti_pos k Hs).
    set (a := w _ * _) in *. set (b := w' _ * _) in *. pose proof (mul_nn (Ti k) (b - a) ltac:(lra) ltac:(lra)). lra.
Qed.
End Rhs.

(** * Removing negative concentrations *)
Lemma anyn_spec n b : anyn n b = true <-> exists i, (i < n)%nat /\ b i = true.
Proof. unfold anyn. rewrite existsb_exists. split; intros (i & H & Hb); exists i; split; auto; apply in_seq in H || apply in_seq; lia. Qed.
Lemma anyn_false n b : anyn n b = false -> forall i, (i < n)%nat -> b i = false.
Proof. intros H i Hi. destruct (b i) eqn:E; [|reflexivity]. assert (anyn n b = true) by (apply anyn_spec; eauto). congruence. Qed.
Lemma pos_neg_sum n x : pos_sum n x + neg_sum n x == sumn n x.
Proof. unfold pos_sum, neg_sum. rewrite <- sumn_plus. apply sumn_ext. intros i _. destruct (negative x i); ring. Qed.
Lemma pos_sum_nn n x : 0 <= pos_sum n x.
Proof. apply sumn_nonneg. intros i _. unfold negative. destruct (Qltb_spec (x i) 0); lra. Qed.
Lemma pos_sum_ext n x y : (forall i, (i < n)%nat -> x i = y i) -> pos_sum n x == pos_sum n y.
Proof. intros H. apply sumn_ext. intros i Hi. unfold negative. rewrite (H i Hi). reflexivity. Qed.
Lemma remove_total g n x z : remove_negatives g n x = Some z -> ~ pos_sum n x == 0 -> sumn n z == sumn n x.
Proof.
  unfold remove_negatives. intros H Hp. destruct (anyn n (negative x)); [|injection H as <-; reflexivity].
  destruct (Qeq_bool_spec (pos_sum n x) 0); [contradiction|]. injection H as <-.
  rewrite (sumn_ext n _ (fun i => (1 + neg_sum n x / pos_sum n x) * (if negative x i then 0 else x i))).
  - rewrite sumn_scale. fold (pos_sum n x). rewrite <- pos_neg_sum. field. exact Hp.
  - intros i Hi. rewrite memo_get by exact Hi. destruct (negative x i); ring.
Qed.
Lemma remove_nonneg g n x z : remove_negatives g n x = Some z -> 0 <= sumn n x -> forall i, (i < n)%nat -> 0 <= z i.
Proof.
  unfold remove_negatives. intros H Hp i Hi. destruct (anyn n (negative x)) eqn:En.
  - destruct (Qeq_bool_spec (pos_sum n x) 0) as [E|E].
    + destruct (g || _); [injection H as <-; apply Qle_refl | discriminate].
    + injection H as <-. rewrite memo_get by exact Hi. unfold negative. destruct (Qltb_spec (x i) 0). apply Qle_refl. apply mul_nn. lra.
      pose proof (pos_sum_nn n x). assert (0 < pos_sum n x) by (destruct (Qlt_le_dec 0 (pos_sum n x)); [assumption|]; exfalso; apply E; lra).
      setoid_replace (1 + neg_sum n x / pos_sum n x) with (sumn n x / pos_sum n x). apply Qle_shift_div_l. assumption. lra.
      rewrite <- pos_neg_sum. field. exact E.
  - injection H as <-. pose proof (anyn_false _ _ En i Hi) as H. unfold negative in H. destruct (Qltb_spec (x i) 0); [discriminate | lra].
Qed.
Lemma remove_never_nan n x g : ~ pos_sum n x == 0 -> exists z, remove_negatives g n x = Some z.
Proof. intros H. unfold remove_negatives. destruct (anyn n (negative x)); [|eauto]. destruct (Qeq_bool_spec (pos_sum n x) 0); [contradiction | eauto]. Qed.
Lemma remove_positive_share g n x z i : remove_negatives g n x = Some z -> ~ pos_sum n x == 0 -> (i < n)%nat ->
  z i == (if Qltb (x i) 0 then 0 else x i * (sumn n x / pos_sum n x)) \/ (forall j, (j < n)%nat -> 0 <= x j).
Proof.
  unfold remove_negatives. intros H Hp Hi. destruct (anyn n (negative x)) eqn:En.
  - left. destruct (Qeq_bool_spec (pos_sum n x) 0); [contradiction|]. injection H as <-. rewrite memo_get by exact Hi. unfold negative. destruct (Qltb (x i) 0). reflexivity.
    rewrite <- pos_neg_sum. field. exact Hp.
  - right. intros j Hj. pose proof (anyn_false _ _ En j Hj) as H'. unfold negative in H'. destruct (Qltb_spec (x j) 0); [discriminate | lra].
Qed.
Lemma tiny_bounds e x : 0 <= e -> x <= no_tiny_negative e 0 x <= x + e.
Proof. intros. unfold no_tiny_negative. destruct (Qltb_spec x 0), (Qltb_spec (- e) x); cbn [andb]; lra. Qed.
Lemma tiny_nn e x : 0 <= x -> no_tiny_negative e 0 x = x.
Proof. intros. unfold no_tiny_negative. destruct (Qltb_spec x 0); [lra | reflexivity]. Qed.
Definition untinied (k : cfg) (x : nat -> Q) : nat -> Q := memo (cells k) (fun i => no_tiny_negative (max_error k) 0 (x i)).
Lemma untinied_sum k x : 0 <= max_error k -> sumn (cells k) x <= sumn (cells k) (untinied k x) <= sumn (cells k) x + inject_Z (Z.of_nat (cells k)) * max_error k.
Proof.
  intros He. split.
  - apply sumn_le. intros i Hi. unfold untinied. rewrite memo_get by exact Hi. apply tiny_bounds, He.
  - rewrite <- sumn_const, <- sumn_plus. apply sumn_le. intros i Hi. unfold untinied. rewrite memo_get by exact Hi. apply tiny_bounds, He.
Qed.
Lemma tidy_nonneg_same k x : (forall i, (i < cells k)%nat -> 0 <= x i) -> exists z, tidy k x = Some z /\ forall i, (i < cells k)%nat -> z i = x i.
Proof.
  intros H. unfold tidy. fold (untinied k x). unfold remove_negatives. assert (E : forall i, (i < cells k)%nat -> untinied k x i = x i).
  { intros i Hi. unfold untinied. rewrite memo_get by exact Hi. apply tiny_nn, H, Hi. }
  destruct (anyn (cells k) (negative (untinied k x))) eqn:En.
  - apply anyn_spec in En. destruct En as (i & Hi & Hn). unfold negative in Hn. rewrite (E i Hi) in Hn. specialize (H i Hi). destruct (Qltb_spec (x i) 0); [lra | discriminate].
  - exists (untinied k x). split. reflexivity. exact E.
Qed.

(** * The iteration *)
Lemma iterate_converged sp k f d : forall fuel w o, iterate sp k f d w fuel = Some o -> converged o = true ->
  forall i, (i < cells k)%nat -> pickup o i = qmin (demand k d (weight o) (ct o) i) (mass d i) /\ short k d (weight o) (ct o) i = false.
Proof.
  induction fuel as [|n IH]; intros w o H Hc i Hi; cbn [iterate] in H; destruct (tidy k _) as [c|]; try discriminate;
    destruct (anyn (cells k) (short k d w c)) eqn:Ea.
  - injection H as <-. discriminate.
  - injection H as <-. cbn [pickup weight ct]. split. reflexivity. apply (anyn_false _ _ Ea i Hi).
  - eapply IH; eauto.
  - injection H as <-. cbn [pickup weight ct]. split. reflexivity. apply (anyn_false _ _ Ea i Hi).
Qed.
Lemma iterate_weights_same sp k f d : forall fuel w o, iterate sp k f d w fuel = Some o -> converged o = true -> exists w', tidy k (sp (matrix k f) (rhs k f d w')) = Some (ct o) /\ weight o = w'.
Proof.
  induction fuel as [|n IH]; intros w o H Hc; cbn [iterate] in H; destruct (tidy k _) as [c|] eqn:Et; try discriminate; destruct (anyn (cells k) (short k d w c)).
  - injection H as <-. discriminate.
  - injection H as <-. cbn [ct weight]. eauto.
  - eapply IH; eauto.
  - injection H as <-. cbn [ct weight]. eauto.
Qed.

(** The two things the iteration needs of the matrix. *)
Definition solvable (k : cfg) (f : flow) : Prop := forall y, exists x, solves (cells k) (matrix k f) y x.
Definition inverse_nonneg (k : cfg) (f : flow) : Prop :=
  forall x, (forall i, (i < cells k)%nat -> 0 <= mulv (cells k) (matrix k f) x i) -> forall i, (i < cells k)%nat -> 0 <= x i.
Lemma inverse_mono k f x z : inverse_nonneg k f -> (forall i, (i < cells k)%nat -> mulv (cells k) (matrix k f) x i <= mulv (cells k) (matrix k f) z i) ->
  forall i, (i < cells k)%nat -> x i <= z i.
Proof.
  intros H Hle i Hi. assert (0 <= z i - x i); [|lra]. apply (H (fun j => z j - x j)); [|exact Hi]. intros j Hj. rewrite mulv_minus. specialize (Hle j Hj). lra.
Qed.
Lemma inverse_unique k f y x z : inverse_nonneg k f -> solves (cells k) (matrix k f) y x -> solves (cells k) (matrix k f) y z -> forall i, (i < cells k)%nat -> x i == z i.
Proof. intros H Hx Hz i Hi. apply Qle_antisym; apply (inverse_mono k f); auto; intros j Hj; rewrite (Hx j Hj), (Hz j Hj); apply Qle_refl. Qed.

Section Terminates.
Variables (sp : (nat -> nat -> Q) -> (nat -> Q) -> nat -> Q) (k : cfg) (f : flow) (d : input).
Hypothesis Hsp : exact_solver (number_of_cells k) (matrix k f) sp.
Hypothesis Hs : sensible k.
Hypothesis Hsolv : solvable k f.
Hypothesis Hinv : inverse_nonneg k f.
Hypothesis Himp : fully_implicit k.
Hypothesis Hin : nonnegative_input k d.
Hypothesis Hends : nonnegative_ends k f.
Hypothesis Herr : 0 < max_error k.
Notation N := (cells k).
Notation sol w := (sp (matrix k f) (rhs k f d w)).
Lemma sol_solves w : solves N (matrix k f) (rhs k f d w) (sol w).
Proof. pose proof (Hsp (rhs k f d w)) as H. rewrite <- cells_eq in H. apply H. apply Hsolv. Qed.
Lemma sol_nonneg w : (forall i, (i < N)%nat -> 0 <= w i) -> forall i, (i < N)%nat -> 0 <= sol w i.
Proof. intros Hw. apply Hinv. intros i Hi. rewrite (sol_solves w i Hi). apply rhs_nonneg; assumption. Qed.
Lemma sol_mono w w' : (forall i, (i < N)%nat -> w i <= w' i) -> forall i, (i < N)%nat -> sol w i <= sol w' i.
Proof. intros Hw. apply (inverse_mono k f); [assumption|]. intros i Hi. rewrite (sol_solves w i Hi), (sol_solves w' i Hi). apply rhs_mono; assumption. Qed.
Definition unit_loss : Q := max_error k * T k / dt k.
Lemma unit_loss_pos : 0 < unit_loss.
Proof. destruct Hs as (_ & _ & H1 & H2 & _). unfold unit_loss. apply Qlt_shift_div_l. exact H1. rewrite Qmult_0_l. apply mul_pos; assumption. Qed.
Lemma short_facts w c i : (i < N)%nat -> 0 <= w i -> short k d w c i = true -> 0 < Cu d i /\ mass d i * T k / dt k + c i + unit_loss < w i * Cu d i.
Proof.
  intros Hi Hw H. unfold short in H. apply andb_prop in H. destruct H as [H1 H2].
  destruct (Qltb_spec (max_error k) (demand k d w c i - mass d i)) as [L1|]; [|discriminate]. destruct (Qltb_spec 0 (w i * Cu d i)) as [L2|]; [|discriminate].
  destruct Hs as (_ & _ & Hdt & HT & _). split.
  - rewrite cells_eq in Hi. destruct (Hin i Hi) as (_ & _ & _ & Hcu & _). destruct (Qlt_le_dec 0 (Cu d i)) as [|L]; [assumption|]. pose proof (mul_np _ _ Hw L). lra.
  - unfold demand in L1. unfold unit_loss.
    assert (L3 : 0 < ((w i * Cu d i - c i) / T k * dt k - mass d i - max_error k) * (T k / dt k)).
    { apply mul_pos. lra. apply Qlt_shift_div_l. assumption. lra. }
    setoid_replace (((w i * Cu d i - c i) / T k * dt k - mass d i - max_error k) * (T k / dt k)) with
      (w i * Cu d i - c i - mass d i * T k / dt k - max_error k * T k / dt k) in L3 by (field; split; lra). lra.
Qed.
Lemma reduced_facts w c i : (i < N)%nat -> 0 <= w i -> 0 <= c i -> 0 <= reduced k d w c i <= w i /\
  (short k d w c i = true -> reduced k d w c i * Cu d i == mass d i * T k / dt k + c i).
Proof.
  intros Hi Hw Hc. unfold reduced. destruct (short k d w c i) eqn:E; [|split; [lra | discriminate]].
  destruct (short_facts w c i Hi Hw E) as (H1 & H2). pose proof unit_loss_pos. destruct Hs as (_ & _ & Hdt & HT & _).
  assert (0 <= mass d i * T k / dt k). { rewrite cells_eq in Hi. destruct (Hin i Hi) as (_ & _ & _ & _ & Hm). apply Qle_shift_div_l. exact Hdt. rewrite Qmult_0_l. apply mul_nn; lra. }
  split.
  - split. apply Qle_shift_div_l. exact H1. lra. apply Qle_shift_div_r. exact H1. lra.
  - intros _. field. split; lra.
Qed.

Lemma progress w c (L : nat -> Q) : (forall i, (i < N)%nat -> 0 <= w i) -> (forall i, (i < N)%nat -> 0 <= c i) -> anyn N (short k d w c) = true ->
  (forall i, (i < N)%nat -> 0 <= L i /\ (c i + 2 * unit_loss <= L i \/ w i * Cu d i == mass d i * T k / dt k + L i)) ->
  let L' := fun i => if short k d w c i then c i else L i in (forall i, (i < N)%nat -> 0 <= L' i) /\ sumn N L' < sumn N L - unit_loss.
Proof.
  intros Hw Hcn Ea HL L'. pose proof unit_loss_pos as Hu. apply anyn_spec in Ea. destruct Ea as (s & Hs1 & Hs2).
  assert (HL' : forall i, (i < N)%nat -> 0 <= L' i /\ L' i <= L i /\ (short k d w c i = true -> L' i < L i - unit_loss)).
  { intros i Hi. unfold L'. destruct (HL i Hi) as (H0 & H1). specialize (Hcn i Hi). destruct (short k d w c i) eqn:Es.
    - destruct (short_facts w c i Hi (Hw i Hi) Es) as (F1 & F2). destruct H1 as [H1|H1]; (split; [lra | split; [lra | intros _; lra]]).
    - repeat split; lra. }
  split. intros i Hi. apply HL', Hi.
  assert (E : sumn N (fun i => if Nat.eqb i s then unit_loss else 0) == unit_loss).
  { rewrite (sumn_single N s). rewrite Nat.eqb_refl. reflexivity. exact Hs1. intros i _ Hi. destruct (Nat.eqb_spec i s); [contradiction|reflexivity]. }
  rewrite <- E, <- sumn_minus. apply (sumn_lt N _ _ s Hs1).
  - rewrite Nat.eqb_refl. apply HL'; assumption.
  - intros i Hi. destruct (Nat.eqb_spec i s) as [->|]. apply Qlt_le_weak, HL'; assumption. destruct (HL' i Hi) as (_ & H & _). lra.
Qed.
Lemma terminates (w0 : nat -> Q) : (forall i, (i < N)%nat -> 0 <= w0 i) -> forall fuel w (L : nat -> Q),
  (forall i, (i < N)%nat -> 0 <= w i <= w0 i) ->
  (forall i, (i < N)%nat -> 0 <= L i /\ (sol w0 i + 2 * unit_loss <= L i \/ w i * Cu d i == mass d i * T k / dt k + L i)) ->
  sumn N L <= unit_loss * inject_Z (Z.of_nat fuel) ->
  exists o, iterate sp k f d w fuel = Some o /\ converged o = true.
Proof.
  intros Hw0. pose proof unit_loss_pos as Hu. induction fuel as [|n IH]; intros w L Hw HL Hsum;
    (destruct (tidy_nonneg_same k (sol w)) as (c & Hc & Hcs); [apply sol_nonneg; intros; apply Hw; assumption|]);
    cbn [iterate]; rewrite Hc;
    (assert (Hcn : forall i, (i < N)%nat -> 0 <= c i <= sol w0 i)
      by (intros i Hi; rewrite (Hcs i Hi); split; [apply sol_nonneg; [intros; apply Hw; assumption | exact Hi] | apply sol_mono; [intros; apply Hw; assumption | exact Hi]]));
    (destruct (anyn N (short k d w c)) eqn:Ea; [|eexists; split; [reflexivity | reflexivity]]);
    (destruct (progress w c L) as (P1 & P2);
      [intros; apply Hw; assumption | intros i Hi; apply Hcn, Hi | exact Ea | intros i Hi; destruct (HL i Hi) as (H0 & H1); specialize (Hcn i Hi); split; [exact H0 | destruct H1 as [H1|H1]; [left; lra | right; exact H1]] |]).
  - exfalso. pose proof (sumn_nonneg _ _ P1). change (inject_Z (Z.of_nat 0)) with 0 in Hsum. lra.
  - apply (IH _ (fun i => if short k d w c i then c i else L i)).
    + intros i Hi. rewrite memo_get by exact Hi. destruct (reduced_facts w c i Hi (proj1 (Hw i Hi)) (proj1 (Hcn i Hi))) as (R & _). specialize (Hw i Hi). lra.
    + intros i Hi. split. apply P1, Hi. rewrite memo_get by exact Hi. destruct (reduced_facts w c i Hi (proj1 (Hw i Hi)) (proj1 (Hcn i Hi))) as (_ & R).
      unfold reduced in *. destruct (short k d w c i). right. apply R. reflexivity. apply HL, Hi.
    + rewrite Nat2Z.inj_succ, <- Z.add_1_r, inject_Z_plus in Hsum. change (inject_Z 1) with 1 in Hsum. lra.
Qed.
Lemma always_converges w0 : (forall i, (i < N)%nat -> 0 <= w0 i) -> exists n0, forall n, (n0 <= n)%nat -> exists o, iterate sp k f d w0 n = Some o /\ converged o = true.
Proof.
  intros Hw0. pose proof unit_loss_pos as Hu. set (L := fun i => sol w0 i + 2 * unit_loss). set (q := sumn N L / unit_loss).
  exists (Z.to_nat (Qceiling q)). intros n Hn. apply (terminates w0 Hw0 n w0 L).
  - intros i Hi. specialize (Hw0 i Hi). lra.
  - intros i Hi. pose proof (sol_nonneg w0 Hw0 i Hi). unfold L. split; [|left]; lra.
  - assert (q <= inject_Z (Z.of_nat n)). { eapply Qle_trans. apply Qle_ceiling. rewrite <- Zle_Qle. lia. }
    setoid_replace (sumn N L) with (unit_loss * q) by (unfold q; field; lra). rewrite (Qmult_comm _ q), (Qmult_comm _ (inject_Z _)). apply mul_le_r. lra. assumption.
Qed.
Lemma converged_state : forall fuel w o, (forall i, (i < N)%nat -> 0 <= w i) -> iterate sp k f d w fuel = Some o -> converged o = true ->
  (forall i, (i < N)%nat -> 0 <= weight o i <= w i) /\ forall i, (i < N)%nat -> ct o i = sol (weight o) i.
Proof.
  induction fuel as [|n IH]; intros w o Hw H Hc; cbn [iterate] in H; destruct (tidy_nonneg_same k (sol w)) as (c & Et & Hcs); try (apply sol_nonneg; assumption);
    rewrite Et in H; destruct (anyn (cells k) (short k d w c)).
  - injection H as <-. discriminate.
  - injection H as <-. cbn [ct weight]. split. intros i Hi. specialize (Hw i Hi). lra. exact Hcs.
  - assert (R : forall i, (i < N)%nat -> 0 <= memo N (reduced k d w c) i <= w i).
    { intros i Hi. rewrite memo_get by exact Hi. apply reduced_facts. exact Hi. apply Hw, Hi. rewrite (Hcs i Hi). apply sol_nonneg; assumption. }
    destruct (IH _ o (fun i Hi => proj1 (R i Hi)) H Hc) as (I1 & I2). split; [|exact I2]. intros i Hi. specialize (I1 i Hi). specialize (R i Hi). lra.
  - injection H as <-. cbn [ct weight]. split. intros i Hi. specialize (Hw i Hi). lra. exact Hcs.
Qed.
End Terminates.
