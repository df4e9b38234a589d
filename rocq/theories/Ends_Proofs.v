(** Proofs of the conditions at the ends. *)
From Coq Require Import QArith Lia Lqa List Bool Arith.
From Verif Require Import Base Num Solver_Model Solver_Spec Linear Solver_Proofs Solver_Iter Solver_Balance Solver_Cases Theta_Proofs Ends_Spec.
Import ListNotations.
Open Scope Q_scope.

Section Rows.
Variables (k : cfg) (f : flow).
Hypothesis (Hg : with_ends k f).
Lemma sea_row x r : (r <= ny k)%nat -> mulv (cells k) (matrix k f) x (r * width k + 0) == at_cell k x r 0 + Ap1 k f r 0 * at_cell k x r 1 + Ap2 k f r 0 * at_cell k x r 2.
Proof.
  intros Hr. pose proof Hg as (Hny & Hnx & _). rewrite row_sum by (assumption || lia).
  assert (Z0 : A0 k f r 0 = 1) by reflexivity. assert (Z1 : Amx k f r 0 = 0) by reflexivity. assert (Z2 : Apx k f (next_row k r) 0 = 0) by reflexivity.
  assert (Z3 : Am1 k f r 0 = 0) by (unfold Am1; cbn [Nat.eqb]; rewrite orb_true_r; reflexivity). assert (Z4 : Am2 k f r 0 = 0) by (unfold Am2; destruct (Nat.eqb_spec 0 (nx k)); [lia | reflexivity]).
  rewrite Z0, Z1, Z2, Z3, Z4. change (0 + 2)%nat with 2%nat. destruct (Nat.eqb (ny k) 0); ring.
Qed.
Lemma land_row x r : (r <= ny k)%nat -> mulv (cells k) (matrix k f) x (r * width k + nx k) == at_cell k x r (nx k) + Am1 k f r (nx k) * at_cell k x r (nx k - 1) + Am2 k f r (nx k) * at_cell k x r (nx k - 2).
Proof.
  intros Hr. pose proof Hg as (Hny & Hnx & _). rewrite row_sum by (assumption || lia). assert (B : border k (nx k) = true) by (unfold border; rewrite Nat.eqb_refl; apply orb_true_r).
  assert (Z0 : A0 k f r (nx k) = 1) by (unfold A0; rewrite B; reflexivity). assert (Z1 : Amx k f r (nx k) = 0) by (unfold Amx; rewrite B; reflexivity). assert (Z2 : Apx k f (next_row k r) (nx k) = 0) by (unfold Apx; rewrite B; reflexivity).
  assert (Z3 : Ap1 k f r (nx k) = 0) by (unfold Ap1; rewrite Nat.eqb_refl, orb_true_r; reflexivity). assert (Z4 : Ap2 k f r (nx k) = 0) by (unfold Ap2; destruct (Nat.eqb_spec (nx k) 0); [lia | reflexivity]).
  rewrite Z0, Z1, Z2, Z3, Z4. destruct (Nat.eqb (ny k) 0); ring.
Qed.
Lemma free_unfixed r : free_row k r -> fixed_row k r = false.
Proof.
  intros (Hr & H). unfold fixed_row. destruct (lateral k) eqn:E; cbn [beq andb]; try reflexivity. specialize (H eq_refl).
  destruct (Nat.eqb_spec r 0); [lia|]. destruct (Nat.eqb_spec r (ny k)); [lia|]. reflexivity.
Qed.
Variables (d : input) (w x : nat -> Q).
Hypothesis Hx : solves (cells k) (matrix k f) (rhs k f d w) x.
Hypothesis Hb : check_boundaries k = Ok tt.
Lemma sea_met r : free_row k r -> offshore_met k f d x r.
Proof.
  intros Hf. pose proof (free_unfixed r Hf) as F. destruct Hf as (Hr & _). pose proof Hg as (Hny & Hnx & Hd). pose proof (sea_row x r Hr) as E. rewrite (Hx _ (rc_lt k r 0 Hr ltac:(lia))) in E. rewrite rhs_rc in E by lia. cbv zeta in E.
  destruct (Nat.eqb_spec 0 (nx k)); [lia|]. change (Nat.eqb 0 0) with true in E. cbv iota in E. unfold Ap1, Ap2 in E. rewrite F in E. cbn [orb] in E. destruct (Nat.eqb_spec 0 (nx k)); [lia|]. change (Nat.eqb 0 0) with true in E. cbv iota in E.
  unfold offshore_met, met. unfold check_boundaries in Hb. change (Cu0 d (r * width k + 0)%nat) with (at_cell k (Cu0 d) r 0) in E.
  destruct (offshore k); cbn [prescribed bind] in *; try discriminate Hb; try lra.
  - assert (0 < uu f r 0) by (apply Hd; lia). assert (X : at_cell k x r 0 == constant_offshore_flux k / uu f r 0) by lra. rewrite X. field. lra.
  - assert (D1 : 0 < ds f r 1) by (apply Hd; lia). assert (D2 : 0 < ds f r 2) by (apply Hd; lia). set (a := at_cell k x r 0) in *. set (b := at_cell k x r 1) in *. set (c := at_cell k x r 2) in *. set (p := ds f r 1%nat) in *. set (q := ds f r 2%nat) in *.
    assert (X : a == b + p / q * (b - c)) by lra. rewrite X. field. lra.
Qed.
Lemma land_met r : free_row k r -> offshore k <> Noflux -> onshore_met k f d x r.
Proof.
  intros Hf Hno. pose proof (free_unfixed r Hf) as F. destruct Hf as (Hr & _). pose proof Hg as (Hny & Hnx & Hd). pose proof (land_row x r Hr) as E. rewrite (Hx _ (rc_lt k r (nx k) Hr ltac:(lia))) in E. rewrite rhs_rc in E by lia. cbv zeta in E.
  rewrite Nat.eqb_refl in E. unfold Am1, Am2 in E. rewrite F, Nat.eqb_refl in E. cbn [orb] in E. destruct (Nat.eqb_spec (nx k) 0); [lia|].
  assert (Eo : onshore_fixed k = beq (onshore k) Flux) by (unfold onshore_fixed; destruct (offshore k); cbn [beq]; rewrite ?andb_false_r, ?orb_false_r; try reflexivity; congruence). rewrite Eo in E.
  unfold onshore_met, met. unfold check_boundaries in Hb. rewrite Eo in Hb. change (Cu0 d (r * width k + nx k)%nat) with (at_cell k (Cu0 d) r (nx k)) in E.
  destruct (match offshore k with Flux | Constant | Uniform | Gradient => Ok tt | Noflux => if trunk k then Ok tt else Raise ValueError | Circular => Raise NotImplementedError | Unknown => Raise ValueError end) as [unit_|]; cbn [bind] in Hb; [|discriminate Hb].
  destruct (onshore k); cbn [prescribed bind beq] in *; try discriminate Hb; try lra.
  - assert (0 < uu f r (nx k)) by (apply Hd; lia). assert (X : at_cell k x r (nx k) == constant_onshore_flux k / uu f r (nx k)) by lra. rewrite X. field. lra.
  - assert (D1 : 0 < ds f r (nx k - 1)) by (apply Hd; lia). assert (D2 : 0 < ds f r (nx k - 2)) by (apply Hd; lia).
    set (a := at_cell k x r (nx k)) in *. set (b := at_cell k x r (nx k - 1)) in *. set (c := at_cell k x r (nx k - 2)) in *. set (p := ds f r (nx k - 1)%nat) in *. set (q := ds f r (nx k - 2)%nat) in *.
    assert (X : a == b + p / q * (b - c)) by lra. rewrite X. field. lra.
Qed.
(** Prescribed concentrations are not negative. *)
Lemma sea_nonneg r : (r <= ny k)%nat -> nonnegative_ends k f -> (forall i, (i < number_of_cells k)%nat -> 0 <= Cu0 d i) -> offshore k = Flux \/ offshore k = Constant \/ offshore k = Noflux -> 0 <= x (r * width k + 0)%nat.
Proof.
  intros Hr (N1 & N2 & N3 & N4 & N5) Hcu Ho. pose proof Hg as (Hny & Hnx & Hd). pose proof (rc_lt k r 0 Hr ltac:(lia)) as Hi. pose proof (sea_row x r Hr) as E. rewrite (Hx _ Hi) in E. rewrite rhs_rc in E by lia. cbv zeta in E.
  destruct (Nat.eqb_spec 0 (nx k)); [lia|]. change (Nat.eqb 0 0) with true in E. cbv iota in E. change (at_cell k x r 0) with (x (r * width k + 0)%nat) in E.
  assert (A1 : Ap1 k f r 0 = 0) by (unfold Ap1; destruct (fixed_row k r || Nat.eqb 0 (nx k)); [reflexivity|]; destruct Ho as [-> | [-> | ->]]; reflexivity).
  assert (A2 : Ap2 k f r 0 = 0) by (unfold Ap2; cbn [Nat.eqb]; destruct Ho as [-> | [-> | ->]]; reflexivity). rewrite A1, A2 in E.
  assert (P : 0 <= prescribed (offshore k) (offshore_flux k) (constant_offshore_flux k) (Cu0 d (r * width k + 0)%nat) (uu f r 0%nat)) by (apply prescribed_nn; try assumption; [apply Hcu; rewrite <- cells_eq; exact Hi | apply N5; lia]). lra.
Qed.
Lemma land_nonneg r : (r <= ny k)%nat -> nonnegative_ends k f -> (forall i, (i < number_of_cells k)%nat -> 0 <= Cu0 d i) -> onshore k = Flux \/ onshore k = Constant -> 0 <= x (r * width k + nx k)%nat.
Proof.
  intros Hr (N1 & N2 & N3 & N4 & N5) Hcu Ho. pose proof Hg as (Hny & Hnx & Hd). pose proof (rc_lt k r (nx k) Hr ltac:(lia)) as Hi. pose proof (land_row x r Hr) as E. rewrite (Hx _ Hi) in E. rewrite rhs_rc in E by lia. cbv zeta in E.
  rewrite Nat.eqb_refl in E. change (at_cell k x r (nx k)) with (x (r * width k + nx k)%nat) in E.
  assert (A1 : Am1 k f r (nx k) = 0) by (unfold Am1; destruct (fixed_row k r || Nat.eqb (nx k) 0); [reflexivity|]; rewrite Nat.eqb_refl; destruct (onshore_fixed k); [reflexivity|]; destruct Ho as [-> | ->]; reflexivity).
  assert (A2 : Am2 k f r (nx k) = 0) by (unfold Am2; rewrite Nat.eqb_refl; destruct (onshore_fixed k); [reflexivity|]; destruct Ho as [-> | ->]; reflexivity). rewrite A1, A2 in E.
  assert (P : 0 <= prescribed (onshore k) (onshore_flux k) (constant_onshore_flux k) (Cu0 d (r * width k + nx k)%nat) (uu f r (nx k))) by (apply prescribed_nn; try assumption; [apply Hcu; rewrite <- cells_eq; exact Hi | apply N5; lia]). lra.
Qed.
End Rows.

Lemma met_ext b a m c u p q x0 x1 x2 y0 y1 y2 : x0 = y0 -> x1 = y1 -> x2 = y2 -> met b a m c u p q x0 x1 x2 -> met b a m c u p q y0 y1 y2.
Proof. intros -> -> ->. exact (fun H => H). Qed.
Lemma iterate_result sp k f d : forall n w o, iterate sp k f d w n = Some o -> exists w', tidy k (sp (matrix k f) (rhs k f d w')) = Some (ct o).
Proof.
  induction n as [|n IH]; intros w o H; cbn [iterate] in H; (destruct (tidy k (sp (matrix k f) (rhs k f d w))) as [c|] eqn:E; [|discriminate H]); destruct (anyn (cells k) (short k d w c)).
  - injection H as <-. exists w. exact E.
  - injection H as <-. exists w. exact E.
  - exact (IH _ _ H).
  - injection H as <-. exists w. exact E.
Qed.
Lemma fraction_checked sp k f d w o : solve_fraction sp k f d w = Ok (Some o) -> check_boundaries k = Ok tt.
Proof. unfold solve_fraction. destruct (check_boundaries k) as [[]|]; [reflexivity | discriminate]. Qed.

(** Converged or not, with one fraction or many. *)
Lemma ends_met sp k f d w o r : with_ends k f -> nonnegative_ends k f -> (forall i, (i < number_of_cells k)%nat -> 0 <= Cu0 d i) -> solving k f sp -> solve_fraction sp k f d w = Ok (Some o) -> sandy k o ->
  free_row k r -> offshore_met k f d (ct o) r /\ (offshore k <> Noflux -> onshore_met k f d (ct o) r).
Proof.
  intros Hg Hnn Hcu Hsp Ho Hsand Hf. pose proof (fraction_checked _ _ _ _ _ _ Ho) as Hb. apply solve_fraction_inv in Ho. symmetry in Ho. destruct (iterate_result _ _ _ _ _ _ _ Ho) as (w' & Ht).
  set (x := sp (matrix k f) (rhs k f d w')) in *. assert (Hx : solves (cells k) (matrix k f) (rhs k f d w') x) by (rewrite cells_eq; apply Hsp).
  assert (Ez : forall i, (i < cells k)%nat -> ct o i = x i).
  { assert (N : forall i, (i < cells k)%nat -> 0 <= x i); [|destruct (tidy_nonneg_same k x N) as (z' & E & S); rewrite E in Ht; injection Ht as <-; exact S].
    intros i Hi. destruct (rc_of k i Hi) as (q & c & Hq & Hc & ->). destruct (Hsand q c Hq Hc) as [P | [(-> & P) | (-> & P)]].
    - apply (tidy_positive k x (ct o) _ Ht Hi P).
    - apply (sea_nonneg k f Hg d w' x Hx q Hq Hnn Hcu P).
    - apply (land_nonneg k f Hg d w' x Hx q Hq Hnn Hcu P). }
  pose proof Hg as (_ & Hnx & _). destruct (Hf) as (Hr & _).
  assert (Ea : forall c, (c <= nx k)%nat -> at_cell k x r c = at_cell k (ct o) r c) by (intros c Hc; symmetry; apply Ez, rc_lt; assumption).
  split.
  - eapply met_ext; [..|exact (sea_met k f Hg d w' x Hx Hb r Hf)]; apply Ea; lia.
  - intros Hno. eapply met_ext; [..|exact (land_met k f Hg d w' x Hx Hb r Hf Hno)]; apply Ea; lia.
Qed.
(** In all rows and without any condition on the outcome, where the ends do not disturb. *)
Lemma ends_always sp k f d w o r : sensible k -> rectangular k f -> lateral_uniform k f -> gathering k f -> quiet_ends k f -> fully_implicit k -> nonnegative_input k d -> nonnegative_ends k f -> 0 < max_error k ->
  exact_solver (number_of_cells k) (matrix k f) sp -> all_nonneg (number_of_cells k) w -> solve_fraction sp k f d w = Ok (Some o) -> converged o = true -> (r <= ny k)%nat ->
  offshore_met k f d (ct o) r /\ (offshore k <> Noflux -> onshore_met k f d (ct o) r).
Proof.
  intros H1 H2 H3 H4 H5 H6 H7 H8 H9 H10 H11 Ho Hc Hr. pose proof (fraction_checked _ _ _ _ _ _ Ho) as Hb.
  destruct (solution_exact sp k f d w H1 H2 H3 H4 H5 H6 H7 H8 H9 H10 H11 o Ho Hc) as (_ & _ & S). rewrite <- cells_eq in S.
  assert (Hg : with_ends k f). { destruct H1 as (A & B & _). split; [exact A|]. split; [exact B|]. intros q c Hq Hcc. split. apply (H2 q c Hq Hcc). apply H8; assumption. }
  assert (Hf : free_row k r). { split; [exact Hr|]. intros L. exfalso. destruct H5 as [(_ & _ & X) | ((_ & _ & X) & _)]; congruence. }
  split. apply (sea_met k f Hg d (weight o) (ct o) S Hb r Hf). apply (land_met k f Hg d (weight o) (ct o) S Hb r Hf).
Qed.
