(** Lemmas about the solution of the transport system: ends, bounds, balances. *)
From Coq Require Import QArith Lia Lqa List Bool Arith Setoid.
From Verif Require Import Base Num Utils_Model Solver_Model Solver_Spec Linear Solver_Proofs Solver_Iter.
Import ListNotations.
Open Scope Q_scope.

Lemma prescribed_solvable k f : sensible k -> rectangular k f -> lateral_uniform k f -> gathering k f -> prescribed_ends k -> solvable k f /\ inverse_nonneg k f.
Proof.
  intros H1 H2 H3 H4 H5. split.
  - intros y. destruct (regular_one_solution k f H1 H2 H3 H4 H5 y) as (x & Hx & _). eauto.
  - intros x Hx. apply (monotone_nonneg (cells k) (matrix k f) (flat k (weights k f)) x); [apply regular_offdiag | apply regular_columns | exact Hx]; assumption.
Qed.

(** * The onshore end has no influence when the wind blows towards it *)
Definition closed (k : cfg) : cfg := {| trunk := trunk k; ny := ny k; nx := nx k; dt := dt k; T := T k; alpha := alpha k; max_error := max_error k; max_iter := max_iter k;
  offshore := offshore k; onshore := Flux; lateral := lateral k; offshore_flux := offshore_flux k; onshore_flux := onshore_flux k;
  constant_offshore_flux := constant_offshore_flux k; constant_onshore_flux := constant_onshore_flux k |}.
Section Onshore.
Variables (k : cfg) (f : flow).
Hypothesis Hs : sensible k.
Hypothesis Hoff : prescribed_offshore k.
Hypothesis Hwind : forall r, (r <= ny k)%nat -> 0 <= us f r (nx k - 1)%nat.
Lemma closed_rows r c : (r <= ny k)%nat -> (c < nx k)%nat -> Am2 (closed k) f r c = Am2 k f r c /\ Am1 (closed k) f r c = Am1 k f r c /\ A0 (closed k) f r c = A0 k f r c
  /\ Ap1 (closed k) f r c = Ap1 k f r c /\ Ap2 (closed k) f r c = Ap2 k f r c /\ Amx (closed k) f r c = Amx k f r c.
Proof.
  intros Hr Hc. unfold Am2, Am1, A0, Ap1, Ap2, Amx. cbn [nx closed offshore]. change (fixed_row (closed k) r) with (fixed_row k r).
  change (border (closed k) c) with (border k c). destruct (Nat.eqb_spec c (nx k)); [lia|]. do 5 (split; [reflexivity|]). reflexivity.
Qed.
Lemma last_column_unused r c : (r <= ny k)%nat -> (c < nx k)%nat -> Ap1 k f r c == 0 \/ (S c < nx k)%nat.
Proof.
  intros Hr Hc. destruct (Nat.eq_dec (S c) (nx k)) as [E|]; [left | right; lia]. destruct Hs as (_ & Hnx & _). unfold Ap1.
  destruct (fixed_row k r); [reflexivity|]. cbn [orb]. destruct (Nat.eqb_spec c (nx k)); [lia|]. destruct (Nat.eqb_spec c 0); [lia|].
  unfold basep1, upw. specialize (Hwind r Hr). replace (nx k - 1)%nat with c in Hwind by lia. destruct (Qle_bool_spec 0 (us f r c)); [ring | lra].
Qed.
Lemma Ap2_off r c : Ap2 k f r c = 0.
Proof. unfold Ap2. destruct (Nat.eqb c 0); [|reflexivity]. destruct Hoff as ([-> | ->] & _); reflexivity. Qed.
Lemma fixed_row_false r : fixed_row k r = false.
Proof. unfold fixed_row. destruct Hoff as (_ & _ & ->). reflexivity. Qed.
Lemma border_rows r : A0 k f r (nx k) = 1 /\ Ap1 k f r (nx k) = 0 /\ Amx k f r (nx k) = 0 /\ Apx k f r (nx k) = 0.
Proof. unfold A0, Ap1, Amx, Apx, border. rewrite Nat.eqb_refl, fixed_row_false, !orb_true_r. repeat split. Qed.
Lemma closed_last r : Am1 (closed k) f r (nx k) = 0 /\ Am2 (closed k) f r (nx k) = 0 /\ A0 (closed k) f r (nx k) = 1 /\ Ap1 (closed k) f r (nx k) = 0 /\ Amx (closed k) f r (nx k) = 0.
Proof.
  unfold Am1, Am2, A0, Ap1, Amx, border. change (fixed_row (closed k) r) with (fixed_row k r). cbn [nx closed]. rewrite Nat.eqb_refl, fixed_row_false, !orb_true_r. cbn [orb].
  destruct Hs as (_ & Hnx & _). destruct (Nat.eqb_spec (nx k) 0); [lia|]. repeat split.
Qed.
(** Rows before the last column agree with those of the closed system, whatever is in the last column. *)
Lemma inner_rows x z r c : (r <= ny k)%nat -> (c < nx k)%nat -> (forall r c, (r <= ny k)%nat -> (c < nx k)%nat -> at_cell k x r c == at_cell k z r c) ->
  mulv (cells k) (matrix k f) x (r * width k + c) == mulv (cells k) (matrix (closed k) f) z (r * width k + c).
Proof.
  intros Hr Hc Hxz. destruct Hs as (Hny & Hnx & _). rewrite row_sum by (assumption || lia).
  change (r * width k + c)%nat with (r * width (closed k) + c)%nat. change (cells k) with (cells (closed k)). rewrite (row_sum (closed k)) by (assumption || (cbn; lia)).
  destruct (closed_rows r c Hr Hc) as (-> & -> & -> & -> & -> & ->). rewrite !Ap2_off.
  change (at_cell (closed k)) with (at_cell k). change (prev_row (closed k)) with (prev_row k). change (next_row (closed k)) with (next_row k). change (ny (closed k)) with (ny k).
  rewrite (Hxz r (c - 2)%nat), (Hxz r (c - 1)%nat), (Hxz r c) by lia.
  assert (E1 : Ap1 k f r c * at_cell k x r (S c) == Ap1 k f r c * at_cell k z r (S c)).
  { destruct (last_column_unused r c Hr Hc) as [E | E]. rewrite E. ring. rewrite (Hxz r (S c)) by assumption. reflexivity. }
  rewrite E1. change (Apx (closed k) f (next_row k r) c) with (Apx k f (next_row k r) c).
  destruct (Nat.eqb (ny k) 0). ring. rewrite (Hxz (prev_row k r) c), (Hxz (next_row k r) c) by (try apply prev_row_le; try apply next_row_le; assumption). ring.
Qed.
Lemma last_row x r : (r <= ny k)%nat -> mulv (cells k) (matrix k f) x (r * width k + nx k) ==
  Am2 k f r (nx k) * at_cell k x r (nx k - 2) + Am1 k f r (nx k) * at_cell k x r (nx k - 1) + at_cell k x r (nx k).
Proof.
  intros Hr. destruct Hs as (Hny & Hnx & _). rewrite row_sum by (assumption || lia). destruct (border_rows r) as (-> & -> & -> & _). rewrite Ap2_off.
  destruct (border_rows (next_row k r)) as (_ & _ & _ & ->). destruct (Nat.eqb (ny k) 0); ring.
Qed.
Lemma closed_last_row x r : (r <= ny k)%nat -> mulv (cells (closed k)) (matrix (closed k) f) x (r * width k + nx k) == at_cell k x r (nx k).
Proof.
  intros Hr. destruct Hs as (Hny & Hnx & _). change (r * width k + nx k)%nat with (r * width (closed k) + nx (closed k))%nat. rewrite (row_sum (closed k)) by (assumption || (cbn; lia)).
  change (nx (closed k)) with (nx k). destruct (closed_last r) as (-> & -> & -> & -> & ->). change (Ap2 (closed k) f r (nx k)) with (Ap2 k f r (nx k)). rewrite Ap2_off.
  change (Apx (closed k) f (next_row (closed k) r) (nx k)) with (Apx k f (next_row k r) (nx k)). destruct (border_rows (next_row k r)) as (_ & _ & _ & ->).
  change (at_cell (closed k)) with (at_cell k). destruct (Nat.eqb (ny (closed k)) 0); ring.
Qed.
Hypothesis Hrect : rectangular k f.
Hypothesis Hlat : lateral_uniform k f.
Hypothesis Hg : gathering k f.
Lemma closed_good : solvable (closed k) f /\ inverse_nonneg (closed k) f.
Proof.
  apply prescribed_solvable; try assumption. destruct Hoff as (Ho & _ & Hl). split; [cbn [closed offshore]; tauto | split; [left; reflexivity | exact Hl]].
Qed.
Lemma at_cell_cut x (z : nat -> Q) r c : (c <= nx k)%nat ->
  at_cell k (fun i => if Nat.eqb (i mod width k) (nx k) then z i else x i) r c = if Nat.eqb c (nx k) then at_cell k z r c else at_cell k x r c.
Proof. intros Hc. unfold at_cell. fold (width k). assert (E : ((r * width k + c) mod width k = c)%nat) by (unfold width; rewrite Nat.add_comm, Nat.mod_add, Nat.mod_small by lia; reflexivity). rewrite E. reflexivity. Qed.
Lemma open_inner_nonneg x : (forall r c, (r <= ny k)%nat -> (c < nx k)%nat -> 0 <= mulv (cells k) (matrix k f) x (r * width k + c)) ->
  forall r c, (r <= ny k)%nat -> (c < nx k)%nat -> 0 <= at_cell k x r c.
Proof.
  intros H. set (z := fun i => if Nat.eqb (i mod width k) (nx k) then 0 else x i).
  assert (Hz : forall r c, (r <= ny k)%nat -> (c < nx k)%nat -> at_cell k x r c == at_cell k z r c).
  { intros r c Hr Hc. unfold z. rewrite (at_cell_cut x (fun _ => 0)) by lia. destruct (Nat.eqb_spec c (nx k)); [lia | reflexivity]. }
  destruct closed_good as (_ & Hn). intros r c Hr Hc. rewrite Hz by assumption. unfold at_cell. apply Hn.
  - intros i Hi. destruct (rc_of (closed k) i Hi) as (r' & c' & Hr' & Hc' & ->). cbn [closed ny nx] in Hr', Hc'. change (width (closed k)) with (width k).
    destruct (Nat.eq_dec c' (nx k)) as [->|].
    + rewrite closed_last_row by exact Hr'. unfold z. rewrite (at_cell_cut x (fun _ => 0)) by lia. rewrite Nat.eqb_refl. apply Qle_refl.
    + change (cells (closed k)) with (cells k). rewrite <- (inner_rows x z) by (auto || lia). apply H; lia.
  - apply (rc_lt k); lia.
Qed.
Lemma open_solvable : solvable k f.
Proof.
  intros y. destruct closed_good as (Hx & _). destruct (Hx y) as (x & Hsol).
  set (b := fun i => y i - Am2 k f (i / width k)%nat (nx k) * at_cell k x (i / width k)%nat (nx k - 2) - Am1 k f (i / width k)%nat (nx k) * at_cell k x (i / width k)%nat (nx k - 1)).
  set (z := fun i => if Nat.eqb (i mod width k) (nx k) then b i else x i). exists z.
  assert (Hz : forall r c, (r <= ny k)%nat -> (c < nx k)%nat -> at_cell k z r c == at_cell k x r c).
  { intros r c Hr Hc. unfold z. rewrite (at_cell_cut x b) by lia. destruct (Nat.eqb_spec c (nx k)); [lia | reflexivity]. }
  intros i Hi. destruct (rc_of k i Hi) as (r & c & Hr & Hc & ->). destruct Hs as (_ & Hnx & _). destruct (Nat.eq_dec c (nx k)) as [->|].
  - rewrite last_row by exact Hr. rewrite (Hz r (nx k - 2)%nat), (Hz r (nx k - 1)%nat) by lia.
    assert (E : at_cell k z r (nx k) = b (r * width k + nx k)%nat) by (unfold z; rewrite (at_cell_cut x b) by lia; rewrite Nat.eqb_refl; reflexivity).
    rewrite E. unfold b. assert (Er : ((r * width k + nx k) / width k = r)%nat) by (unfold width; rewrite Nat.div_add_l, Nat.div_small, Nat.add_0_r by lia; reflexivity).
    rewrite Er. ring.
  - rewrite (inner_rows z x) by (auto || lia). apply Hsol. apply (rc_lt k); lia.
Qed.
Lemma open_unique y x z : solves (cells k) (matrix k f) y x -> solves (cells k) (matrix k f) y z -> forall i, (i < cells k)%nat -> x i == z i.
Proof.
  intros Hx Hz. assert (P : forall x z, solves (cells k) (matrix k f) y x -> solves (cells k) (matrix k f) y z -> forall r c, (r <= ny k)%nat -> (c < nx k)%nat -> at_cell k x r c <= at_cell k z r c).
  { intros u v Hu Hv r c Hr Hc. assert (0 <= at_cell k (fun i => v i - u i) r c); [|unfold at_cell in *; lra].
    apply open_inner_nonneg; [|assumption..]. intros r' c' Hr' Hc'. rewrite mulv_minus, (Hu _ (rc_lt k r' c' Hr' ltac:(lia))), (Hv _ (rc_lt k r' c' Hr' ltac:(lia))). lra. }
  assert (E : forall r c, (r <= ny k)%nat -> (c < nx k)%nat -> at_cell k x r c == at_cell k z r c) by (intros; apply Qle_antisym; apply P; assumption).
  intros i Hi. destruct (rc_of k i Hi) as (r & c & Hr & Hc & ->). destruct Hs as (_ & Hnx & _). destruct (Nat.eq_dec c (nx k)) as [->|].
  - pose proof (Hx _ Hi) as E1. pose proof (Hz _ Hi) as E2. rewrite last_row in E1, E2 by exact Hr. rewrite (E r (nx k - 2)%nat), (E r (nx k - 1)%nat) in E1 by lia.
    unfold at_cell in *. fold (width k) in *. lra.
  - apply E; lia.
Qed.
Lemma uniform_nonneg : onshore k = Uniform -> inverse_nonneg k f.
Proof.
  intros Hu x Hx. assert (P : forall r c, (r <= ny k)%nat -> (c < nx k)%nat -> 0 <= at_cell k x r c).
  { apply open_inner_nonneg. intros r c Hr Hc. apply Hx, rc_lt; lia. }
  intros i Hi. destruct (rc_of k i Hi) as (r & c & Hr & Hc & ->). destruct Hs as (_ & Hnx & _). destruct (Nat.eq_dec c (nx k)) as [->|].
  - specialize (Hx _ Hi). rewrite last_row in Hx by exact Hr. pose proof (P r (nx k - 1)%nat Hr ltac:(lia)).
    assert (E : Am2 k f r (nx k) = 0) by (unfold Am2; rewrite Hu; rewrite Nat.eqb_refl; destruct (onshore_fixed k); reflexivity).
    assert (E' : Am1 k f r (nx k) == -1).
    { unfold Am1. rewrite fixed_row_false, Nat.eqb_refl. cbn [orb]. destruct (Nat.eqb_spec (nx k) 0); [lia|]. unfold onshore_fixed. rewrite Hu.
      destruct Hoff as ([-> | ->] & _); cbn [beq]; rewrite andb_false_r; reflexivity. }
    rewrite E, E' in Hx. unfold at_cell in *. fold (width k) in *. lra.
  - apply P; lia.
Qed.
End Onshore.
Lemma quiet_good k f : sensible k -> rectangular k f -> lateral_uniform k f -> gathering k f -> quiet_ends k f -> solvable k f /\ inverse_nonneg k f.
Proof.
  intros H1 H2 H3 H4 [H5 | (H5 & H6 & H7)]. apply prescribed_solvable; assumption. split. apply open_solvable; assumption. apply uniform_nonneg; assumption.
Qed.

(** * Bounds in a uniform wind *)
Lemma uniform_gathering k f u v : uniform_wind k f u v -> lateral_uniform k f /\ (sensible k -> gathering k f).
Proof.
  intros H. split. intros r c Hr Hc. rewrite (proj2 (H r c Hr Hc)), (proj2 (H 0%nat c ltac:(lia) Hc)). reflexivity.
  intros (_ & Hnx & _). split.
  - intros r c Hr Hc. rewrite (proj1 (H r c Hr ltac:(lia))), (proj1 (H r (S c) Hr ltac:(lia))). auto.
  - intros r c (Hr & H1 & H2). rewrite (proj1 (H r c Hr ltac:(lia))), (proj1 (H r (S c) Hr ltac:(lia))). lra.
Qed.
Section Uniform.
Variables (k : cfg) (f : flow) (u v : Q).
Hypothesis Hs : sensible k.
Hypothesis Hrect : rectangular k f.
Hypothesis Hw : uniform_wind k f u v.
Hypothesis Hl : lateral k = Circular.
Let Hlat : lateral_uniform k f := proj1 (uniform_gathering k f u v Hw).
Lemma inside_rows r c : (1 <= c)%nat -> (c < nx k)%nat -> Am2 k f r c = 0 /\ Am1 k f r c = basem1 k f r c /\ A0 k f r c = base0 k f r c /\ Ap1 k f r c = basep1 k f r c /\ Ap2 k f r c = 0
  /\ Amx k f r c = basemx k f r c /\ Apx k f r c = basepx k f r c.
Proof.
  intros H1 H2. unfold Am2, Am1, A0, Ap1, Ap2, Amx, Apx, fixed_row, border. rewrite Hl. cbn [beq andb]. destruct (Nat.eqb_spec c 0); [lia|]. destruct (Nat.eqb_spec c (nx k)); [lia|]. repeat split.
Qed.
Lemma constant_row M r c : (r <= ny k)%nat -> (1 <= c)%nat -> (c < nx k)%nat ->
  mulv (cells k) (matrix k f) (fun _ => M) (r * width k + c) ==
  M * (one k + implicitness k * Ti k) + (if Nat.eqb (ny k) 0 then M * (implicitness k * (tstep k / dn f 0%nat 0%nat) * qabs v) else 0).
Proof.
  intros Hr H1 H2. pose proof Hs as (Hny & Hnx & _). rewrite row_sum by (assumption || lia). destruct (inside_rows r c H1 H2) as (-> & -> & -> & -> & -> & -> & _).
  destruct (inside_rows (next_row k r) c H1 H2) as (_ & _ & _ & _ & _ & _ & ->). unfold at_cell.
  rewrite base0_eq, basep1_eq by (assumption || lia). destruct c as [|c]; [lia|]. rewrite basem1_eq by (assumption || lia).
  pose proof (Hw r (S c) Hr ltac:(lia)) as (E1 & E2). pose proof (Hw r c Hr ltac:(lia)) as (E3 & _). pose proof (Hw r (S (S c)) Hr ltac:(lia)) as (E4 & _).
  pose proof (Hw 0%nat (S c) ltac:(lia) ltac:(lia)) as (_ & E5).
  assert (EV : qabs v == (2 * upw v - 1) * v) by (rewrite <- sgn_abs; reflexivity).
  rewrite <- (sgn_abs (us f r (S c))), <- (sgn_abs (un f r (S c))). unfold sgn. rewrite (upw_compat _ _ E1), (upw_compat _ _ E2), E1, E2, E3, E4.
  destruct (Nat.eqb_spec (ny k) 0) as [Hz|Hz]. rewrite EV. ring.
  rewrite basemx_eq, basepx_eq by (try assumption; try apply next_row_le; try assumption; lia). rewrite (upw_compat _ _ E5), E5. ring.
Qed.
Lemma bounded d w M x : prescribed_ends k -> fully_implicit k -> bounded_by k f d w M -> solves (cells k) (matrix k f) (rhs k f d w) x -> forall i, (i < cells k)%nat -> x i <= M.
Proof.
  intros He Himp (HM & Hb & Hbe) Hx. pose proof Hs as (Hny & Hnx & _).
  assert (Hg : gathering k f) by (apply (uniform_gathering k f u v Hw); exact Hs).
  destruct (prescribed_solvable k f Hs Hrect Hlat Hg He) as (_ & Hinv).
  apply (inverse_mono k f x (fun _ => M) Hinv). intros i Hi. rewrite (Hx i Hi). destruct (rc_of k i Hi) as (r & c & Hr & Hc & ->).
  destruct (border_spec k c Hc) as [[Eb Hbord] | [_ [H1 H2]]].
  - assert (E : mulv (cells k) (matrix k f) (fun _ => M) (r * width k + c) == M).
    { rewrite row_sum by (assumption || lia). rewrite Am2_zero, Ap2_zero, Am1_eq, Ap1_eq, A0_eq, Amx_eq, Apx_eq by assumption. rewrite Eb. unfold at_cell. destruct (Nat.eqb (ny k) 0); ring. }
    rewrite E, rhs_rc by exact Hc. cbv zeta. destruct (Hbe r Hr) as (B1 & B2). destruct (Nat.eqb_spec c (nx k)) as [->|]. exact B2. destruct (Nat.eqb_spec c 0) as [->|]. exact B1. lia.
  - rewrite (constant_row M r c Hr H1 H2). rewrite (rhs_implicit k f d Himp w r c Hr H1 H2). rewrite cells_eq in Hi. destruct (Hb _ Hi) as (B1 & B2).
    pose proof (Ti_pos k Hs) as HT. set (q := w _ * capacity d _) in *.
    assert (HTq : Ti k * q <= Ti k * M) by (rewrite !(Qmult_comm (Ti k)); apply mul_le_r; lra).
    assert (Himpl : implicitness k == 1) by (unfold implicitness; unfold fully_implicit in Himp; destruct (trunk k); [apply Himp; reflexivity | reflexivity]).
    assert (Hex : 0 <= (if Nat.eqb (ny k) 0 then M * (implicitness k * (tstep k / dn f 0%nat 0%nat) * qabs v) else 0)).
    { destruct (Nat.eqb (ny k) 0); [|apply Qle_refl]. apply mul_nn. exact HM. apply mul_nn. apply (al_ts_nn k Hs). apply (h_pos k f Hrect). apply qabs_nonneg. }
    unfold one in *. rewrite Himpl at 1. destruct (trunk k); lra.
Qed.
Lemma row_neighbours i : (i < cells k)%nat -> (row_before k i < cells k)%nat /\ (row_after k i < cells k)%nat.
Proof.
  intros Hi. unfold row_before, row_after, cells in *. destruct (Nat.ltb_spec i (width k)), (Nat.ltb_spec i (width k * ny k)); lia.
Qed.
Lemma uniform_speeds r c : (r <= ny k)%nat -> (1 <= c)%nat -> (c < nx k)%nat -> us_plus f r c == u /\ us_min k f r c == u /\ un_plus f r c == v /\ un_min k f r c == v.
Proof.
  intros Hr H1 H2. unfold us_min, un_min. destruct (Nat.eqb_spec c (nx k)); [lia|]. destruct c as [|c]; [lia|]. cbn [us_plus]. repeat split.
  - apply Hw; lia.
  - apply Hw; lia.
  - destruct r; cbn [un_plus]; apply Hw; lia.
  - destruct (Nat.eqb_spec r (ny k)); apply Hw; lia.
Qed.
Lemma explicit_saturated d w C r c : saturated k f d w C -> (r <= ny k)%nat -> (1 <= c)%nat -> (c < nx k)%nat -> explicit k f d (r * width k + c) == 0.
Proof.
  intros (Hsat & _) Hr H1 H2. set (i := (r * width k + c)%nat). assert (Hi : (i < cells k)%nat) by (apply rc_lt; lia).
  unfold explicit. assert (E1 : (i / width k = r)%nat). { unfold i, width. rewrite Nat.div_add_l, Nat.div_small, Nat.add_0_r by lia. reflexivity. }
  assert (E2 : (i mod width k = c)%nat). { unfold i, width. rewrite Nat.add_comm, Nat.mod_add, Nat.mod_small by lia. reflexivity. }
  rewrite E1, E2. cbv zeta. assert (Hl' : forall j, (j < cells k)%nat -> lCt d j == C) by (intros j Hj; rewrite cells_eq in Hj; apply Hsat, Hj).
  destruct (row_neighbours i Hi) as (R1 & R2). assert (R3 : (i + 1 < cells k)%nat). { unfold i. replace (r * width k + c + 1)%nat with (r * width k + S c)%nat by lia. apply rc_lt; lia. }
  rewrite (Hl' i Hi), (Hl' (i - 1)%nat ltac:(lia)), (Hl' (i + 1)%nat R3), (Hl' _ R1), (Hl' _ R2).
  assert (Es : source k (lw d i) (lCu d i) (lCuf d i) (sat d i) == Ti k * C).
  { rewrite cells_eq in Hi. destruct (Hsat i Hi) as (_ & _ & _ & E & _). rewrite <- E. unfold source. ring. }
  rewrite Es, !cs_eq, !cn_eq by (assumption || lia). destruct (uniform_speeds r c Hr H1 H2) as (-> & -> & -> & ->). destruct (Hw r c Hr ltac:(lia)) as (U & V).
  unfold sgn. rewrite (upw_compat _ _ U), (upw_compat _ _ V), U, V. ring.
Qed.
Lemma saturated_solves d w C : prescribed_offshore k -> saturated k f d w C -> (ny k <> 0%nat \/ v == 0) -> solves (cells k) (matrix k f) (rhs k f d w) (fun _ => C).
Proof.
  intros Hoff Hsat Hside i Hi. destruct (rc_of k i Hi) as (r & c & Hr & Hc & ->). pose proof Hs as (Hny & Hnx & _). pose proof Hsat as (Hsat1 & Hsat2). destruct (Hsat2 r Hr) as (S1 & S2).
  destruct (border_spec k c Hc) as [[Eb Hbord] | [_ [H1 H2]]].
  - destruct (Nat.eq_dec c (nx k)) as [->|Hn].
    + rewrite last_row by assumption. rewrite rhs_rc by lia. change (at_cell k (fun _ => C)) with (fun (_ _ : nat) => C). cbv beta. change (Cu0 d (r * width k + nx k)%nat) with (at_cell k (Cu0 d) r (nx k)). cbv zeta. change (Cu0 d (r * width k + nx k)%nat) with (at_cell k (Cu0 d) r (nx k)). rewrite Nat.eqb_refl.
      assert (Hf : fixed_row k r = false) by (apply fixed_row_false; exact Hoff).
      assert (Ho : onshore_fixed k = beq (onshore k) Flux) by (unfold onshore_fixed; destruct Hoff as ([-> | ->] & _); cbn [beq]; rewrite andb_false_r, orb_false_r; reflexivity).
      unfold Am2, Am1. rewrite Hf, Nat.eqb_refl, Ho. cbn [orb]. destruct (Nat.eqb_spec (nx k) 0); [lia|].
      destruct Hoff as (_ & [E | [E | [E | E]]] & _); rewrite E in *; cbn [beq prescribed] in *.
      * rewrite S2 by auto. ring.
      * rewrite S2 by auto. ring.
      * ring.
      * ring.
    + assert (c = 0%nat) by lia. subst c. rewrite row_sum by (assumption || lia). set (b := Nat.eqb (ny k) 0).
      assert (Hf : forall r, fixed_row k r = false) by (intros; apply fixed_row_false; exact Hoff).
      rewrite rhs_rc by lia. cbv zeta. unfold Am2, Am1, A0, Ap1, Ap2, Amx, Apx, border. rewrite !Hf. destruct (Nat.eqb_spec 0 (nx k)); [lia|]. change (Nat.eqb 0 0) with true. cbn [orb]. cbv iota.
      change (Cu0 d (r * width k + 0)%nat) with (at_cell k (Cu0 d) r 0). rewrite S1. unfold at_cell.
      destruct Hoff as ([E | E] & _); rewrite E; destruct b; ring.
  - rewrite (constant_row C r c Hr H1 H2). rewrite rhs_rc by lia. cbv zeta. destruct (Nat.eqb_spec c (nx k)); [lia|]. destruct (Nat.eqb_spec c 0); [lia|].
    assert (Hx : (if Nat.eqb (ny k) 0 then C * (implicitness k * (tstep k / dn f 0%nat 0%nat) * qabs v) else 0) == 0).
    { destruct (Nat.eqb_spec (ny k) 0); [|reflexivity]. destruct Hside as [|E]; [contradiction|]. assert (Ea : qabs v == 0) by (unfold qabs; destruct (Qle_bool 0 v); lra). rewrite Ea. ring. }
    rewrite Hx. rewrite cells_eq in Hi. destruct (Hsat1 _ Hi) as (L1 & L2 & L3 & _). unfold one, implicitness. destruct (trunk k); rewrite source_eq, L3.
    + rewrite L1, (explicit_saturated d w C r c Hsat Hr H1 H2). ring.
    + ring.
Qed.
End Uniform.

(** * Balance of mass *)
Section Balance.
Variables (k : cfg) (f : flow) (d : input) (w x : nat -> Q).
Hypothesis Hs : sensible k.
Hypothesis Hrect : rectangular k f.
Hypothesis Hlat : lateral_uniform k f.
Hypothesis Hl : lateral k = Circular.
Hypothesis Hwind : onshore_wind k f.
Hypothesis Hside : no_side_wind_in_1d k f.
Hypothesis Htrunk : trunk k = true.
Hypothesis Himp : fully_implicit k.
Hypothesis Hx : solves (cells k) (matrix k f) (rhs k f d w) x.
Lemma cell_balance r c : inside k r c -> area f r c * (at_cell k x r c - at_cell k (lCt d) r c) == inflow k f x r c + area f r c * exchange k d w x r c.
Proof.
  intros (Hr & H1 & H2). pose proof Hs as (Hny & Hnx & Hdt & HT & _). pose proof (Hx _ (rc_lt k r c Hr ltac:(lia))) as E.
  rewrite row_sum in E by (assumption || lia). destruct (inside_rows k f Hl r c H1 H2) as (E1 & E2 & E3 & E4 & E5 & E6 & _). rewrite E1, E2, E3, E4, E5, E6 in E.
  destruct (inside_rows k f Hl (next_row k r) c H1 H2) as (_ & _ & _ & _ & _ & _ & E7). rewrite E7 in E.
  rewrite (rhs_implicit k f d Himp w r c Hr H1 H2) in E. rewrite Htrunk in E.
  rewrite base0_eq, basep1_eq in E by (assumption || lia). destruct c as [|c]; [lia|]. rewrite basem1_eq in E by (assumption || lia).
  assert (U1 : upw (us f r (S c)) = 1) by (unfold upw; specialize (Hwind r (S c) Hr ltac:(lia)); destruct (Qle_bool_spec 0 (us f r (S c))); [reflexivity | lra]).
  rewrite <- (sgn_abs (us f r (S c))) in E. unfold sgn in E. rewrite U1 in E. unfold one in E. rewrite Htrunk in E.
  assert (Hi1 : implicitness k == 1) by (unfold implicitness; rewrite Htrunk; apply Himp, Htrunk). assert (Hts : tstep k = dt k) by (unfold tstep; rewrite Htrunk; reflexivity).
  rewrite Hi1, Hts in E. replace (S c - 1)%nat with c in E by lia.
  destruct (Hrect r (S c) Hr ltac:(lia)) as (D1 & D2 & D3 & D4).
  unfold area, inflow, exchange. replace (S c - 1)%nat with c by lia. unfold Ti in E. rewrite Hts in E.
  set (X := at_cell k x) in *. set (i := (r * width k + S c)%nat) in *. change (r * S (nx k) + S c)%nat with i.
  assert (EX : x i = X r (S c)) by reflexivity. rewrite EX. change (at_cell k (lCt d) r (S c)) with (lCt d i).
  assert (V : un f r (S c) == un f 0%nat (S c)) by (apply Hlat; [exact Hr | lia]).
  assert (Vmax : qmax (un f r (S c)) 0 == un f 0%nat (S c) * upw (un f 0%nat (S c))).
  { rewrite <- (upw_compat _ _ V), <- V. unfold qmax, upw. destruct (Qle_bool_spec (un f r (S c)) 0), (Qle_bool_spec 0 (un f r (S c))); lra. }
  assert (Vmin : qmin (un f r (S c)) 0 == un f 0%nat (S c) * (1 - upw (un f 0%nat (S c)))).
  { rewrite <- (upw_compat _ _ V), <- V. unfold qmin, upw. destruct (Qle_bool_spec (un f r (S c)) 0), (Qle_bool_spec 0 (un f r (S c))); lra. }
  assert (Vabs : qabs (un f r (S c)) == un f 0%nat (S c) * upw (un f 0%nat (S c)) - un f 0%nat (S c) * (1 - upw (un f 0%nat (S c)))).
  { rewrite <- sgn_abs. unfold sgn. rewrite (upw_compat _ _ V), V. ring. }
  rewrite Vmax, Vmin. rewrite Vabs in E. rewrite D4, D2. rewrite D4 in D3. rewrite D2 in D1.
  set (V1 := un f 0%nat (S c) * upw (un f 0%nat (S c))) in *. set (V2 := un f 0%nat (S c) * (1 - upw (un f 0%nat (S c)))) in *.
  set (hs := ds f 0%nat (S c)) in *. set (h := dn f 0%nat 0%nat) in *. set (cap := w i * capacity d i) in *.
  change (row_up k r) with (prev_row k r). change (row_down k r) with (next_row k r).
  assert (Elat : (if Nat.eqb (ny k) 0 then 0 else basemx k f r (S c) * X (prev_row k r) (S c) + basepx k f (next_row k r) (S c) * X (next_row k r) (S c))
     == - (dt k / h) * V1 * X (prev_row k r) (S c) + (dt k / h) * V2 * X (next_row k r) (S c)).
  { destruct (Nat.eqb_spec (ny k) 0) as [Hz|Hz].
    - assert (V0 : un f 0%nat (S c) == 0) by (apply Hside; [exact Hz | lia]). assert (Z1 : V1 == 0) by (unfold V1; rewrite V0 at 1; ring). assert (Z2 : V2 == 0) by (unfold V2; rewrite V0 at 1; ring). rewrite Z1, Z2. ring.
    - rewrite basemx_eq, basepx_eq by (try assumption; try apply next_row_le; try assumption; lia). fold V1 V2. rewrite Hi1, Hts. fold h. ring. }
  rewrite Elat in E. set (P := X (prev_row k r) (S c)) in *. set (Nx := X (next_row k r) (S c)) in *. set (X1 := X r (S c)) in *. set (X0 := X r c) in *.
  set (u0 := us f r c) in *. set (u1 := us f r (S c)) in *.
  assert (E' : X1 - lCt d i == dt k / hs * (u0 * X0 - u1 * X1) + dt k / h * (V1 * (P - X1) + V2 * (X1 - Nx)) + (cap - X1) * dt k / T k).
  { set (aT := dt k / T k) in *. setoid_replace ((cap - X1) * dt k / T k) with ((cap - X1) * aT) by (unfold aT; field; lra). set (ah := dt k / hs) in *. set (an := dt k / h) in *.
    clearbody ah an aT. lra. }
  rewrite E'. field. repeat split; lra.
Qed.
Lemma over_inside_sumn g : over_inside k g = sumn (S (ny k)) (fun r => sumn (nx k - 1) (fun j => g r (S j))).
Proof. unfold over_inside, sumn. f_equal. apply map_ext. intros r. rewrite <- seq_shift, map_map. reflexivity. Qed.
Lemma telescope (F : nat -> Q) m : sumn m (fun j => F j - F (S j)) == F 0%nat - F m.
Proof. induction m. rewrite sumn_0. ring. rewrite sumn_S, IHm. ring. Qed.
Lemma sumn_shift n g : sumn (S n) g == g 0%nat + sumn n (fun r => g (S r)).
Proof. induction n. rewrite sumn_S, sumn_0. cbn. ring. rewrite sumn_S, IHn, (sumn_S n). ring. Qed.
Lemma cyclic_prev g : sumn (S (ny k)) (fun r => g (prev_row k r)) == sumn (S (ny k)) g.
Proof. rewrite sumn_shift, sumn_S. cbn [prev_row]. change (sumn (ny k) (fun r => g r)) with (sumn (ny k) g). ring. Qed.
Lemma cyclic_next g : sumn (S (ny k)) (fun r => g (next_row k r)) == sumn (S (ny k)) g.
Proof.
  rewrite sumn_S, sumn_shift. unfold next_row at 2. rewrite Nat.eqb_refl. rewrite (sumn_ext (ny k) _ (fun r => g (S r))).
  ring. intros r Hr. unfold next_row. destruct (Nat.eqb_spec r (ny k)); [lia | reflexivity].
Qed.
Lemma total_inflow : over_inside k (inflow k f x) ==
  over_rows k (fun r => dt k * dn f r 0%nat * (us f r 0%nat * at_cell k x r 0 - us f r (nx k - 1)%nat * at_cell k x r (nx k - 1))).
Proof.
  rewrite over_inside_sumn. change (over_rows k) with (sumn (S (ny k))). set (X := at_cell k x). pose proof Hs as (_ & Hnx & _).
  set (lat := fun r c => dt k * ds f 0%nat c * (un f 0%nat c * upw (un f 0%nat c) * (X (prev_row k r) c - X r c) + un f 0%nat c * (1 - upw (un f 0%nat c)) * (X r c - X (next_row k r) c))).
  rewrite (sumn_ext _ _ (fun r => dt k * dn f r 0%nat * (us f r 0%nat * X r 0%nat - us f r (nx k - 1)%nat * X r (nx k - 1)%nat) + sumn (nx k - 1) (fun j => lat r (S j)))).
  2:{ intros r Hr. rewrite <- (telescope (fun c => us f r c * X r c) (nx k - 1)). rewrite <- sumn_scale, <- sumn_plus. apply sumn_ext. intros j Hj.
      unfold inflow, lat. fold X. replace (S j - 1)%nat with j by lia. assert (V : un f r (S j) == un f 0%nat (S j)) by (apply Hlat; lia).
      assert (Vmax : qmax (un f r (S j)) 0 == un f 0%nat (S j) * upw (un f 0%nat (S j))).
      { rewrite <- (upw_compat _ _ V), <- V. unfold qmax, upw. destruct (Qle_bool_spec (un f r (S j)) 0), (Qle_bool_spec 0 (un f r (S j))); lra. }
      assert (Vmin : qmin (un f r (S j)) 0 == un f 0%nat (S j) * (1 - upw (un f 0%nat (S j)))).
      { rewrite <- (upw_compat _ _ V), <- V. unfold qmin, upw. destruct (Qle_bool_spec (un f r (S j)) 0), (Qle_bool_spec 0 (un f r (S j))); lra. }
      rewrite Vmax, Vmin. destruct (Hrect r (S j) ltac:(lia) ltac:(lia)) as (_ & D2 & _ & D4). destruct (Hrect r 0%nat ltac:(lia) ltac:(lia)) as (_ & _ & _ & D5). rewrite D2, D4, D5.
      change (row_up k r) with (prev_row k r). change (row_down k r) with (next_row k r). ring. }
  rewrite sumn_plus. rewrite (sumn_swap (S (ny k))). rewrite (sumn_zero (nx k - 1)). unfold X. ring.
  intros j Hj. set (V1 := un f 0%nat (S j) * upw (un f 0%nat (S j))). set (V2 := un f 0%nat (S j) * (1 - upw (un f 0%nat (S j)))). set (a := dt k * ds f 0%nat (S j)).
  set (g := fun r => X r (S j)).
  rewrite (sumn_ext _ _ (fun r => a * V1 * (g (prev_row k r) - g r) + a * V2 * (g r - g (next_row k r)))) by (intros r _; unfold lat, a, V1, V2, g; ring).
  rewrite sumn_plus, !sumn_scale, !sumn_minus. rewrite (cyclic_prev g), (cyclic_next g). ring.
Qed.
Lemma total_balance : over_inside k (fun r c => area f r c * (at_cell k x r c - at_cell k (lCt d) r c)) ==
  over_inside k (fun r c => area f r c * exchange k d w x r c)
  + over_rows k (fun r => dt k * dn f r 0%nat * (us f r 0%nat * at_cell k x r 0 - us f r (nx k - 1)%nat * at_cell k x r (nx k - 1))).
Proof.
  rewrite <- total_inflow, !over_inside_sumn, <- sumn_plus. apply sumn_ext. intros r Hr. rewrite <- sumn_plus. apply sumn_ext. intros j Hj.
  rewrite cell_balance by (unfold inside; lia). ring.
Qed.
End Balance.

(** * Whole solves *)
Lemma solve_fraction_ok sp k f d w : check_boundaries k = Ok tt -> distinct_offsets k = true -> max_iter k <> 0%nat -> solve_fraction sp k f d w = Ok (iterate sp k f d w (max_iter k - 1)).
Proof. intros H1 H2 H3. unfold solve_fraction. rewrite H1. cbn [bind]. rewrite H2. destruct (max_iter k) as [|n]; [contradiction|]. cbn [negb]. replace (S n - 1)%nat with n by lia. reflexivity. Qed.
Lemma solve_fraction_inv sp k f d w o : solve_fraction sp k f d w = Ok o -> o = iterate sp k f d w (max_iter k - 1).
Proof.
  unfold solve_fraction. destruct (check_boundaries k); [|discriminate]. cbn [bind]. destruct (negb _); [discriminate|]. destruct (max_iter k) as [|n]; [discriminate|].
  replace (S n - 1)%nat with n by lia. injection 1 as <-. reflexivity.
Qed.
Lemma fractions_each sp k : forall fs i w os w', fractions sp k i fs w = Ok (Some (os, w')) ->
  Forall2 (fun o fd => exists w0, solve_fraction sp k (fst fd) (snd fd) w0 = Ok (Some o)) os fs.
Proof.
  induction fs as [|[f d] fs IH]; intros i w os w' H; cbn [fractions] in H. injection H as <- _. constructor.
  destruct (solve_fraction sp k f d _) as [o|] eqn:E; [|discriminate]. cbn [bind] in H. destruct o as [o|]; [|discriminate].
  destruct (fractions sp k (S i) fs _) as [rest|] eqn:E2; [|discriminate]. cbn [bind] in H. destruct rest as [[os' w2]|]; [|discriminate].
  injection H as <- <-. constructor. eauto. eapply IH; eauto.
Qed.
Lemma pickup_within sp k f d w o : solve_fraction sp k f d w = Ok (Some o) -> converged o = true -> forall i, (i < number_of_cells k)%nat -> pickup o i <= mass d i
  /\ pickup o i <= (weight o i * Cu d i - ct o i) / T k * dt k
  /\ (0 < weight o i * Cu d i -> 0 <= max_error k -> (weight o i * Cu d i - ct o i) / T k * dt k - max_error k <= pickup o i).
Proof.
  intros H Hc i Hi. apply solve_fraction_inv in H. symmetry in H. rewrite <- cells_eq in Hi. destruct (iterate_converged sp k f d _ _ _ H Hc i Hi) as (E & Hsh).
  rewrite E. fold (demand k d (weight o) (ct o) i). split; [apply qmin_r | split; [apply qmin_l|]]. intros Hpos He. unfold short in Hsh.
  destruct (Qltb_spec 0 (weight o i * Cu d i)) as [_|N]; [|lra]. rewrite andb_true_r in Hsh. destruct (Qltb_spec (max_error k) (demand k d (weight o) (ct o) i - mass d i)); [discriminate|].
  apply qmin_glb; lra.
Qed.
