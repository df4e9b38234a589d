(** Statements for Solver_Props.v, put together from the lemmas, and concrete cases. *)
From Coq Require Import QArith Lia Lqa List Bool Arith Setoid.
From Verif Require Import Base Num Utils_Model Solver_Model Solver_Spec Linear Solver_Proofs Solver_Iter Solver_Balance.
Import ListNotations.
Open Scope Q_scope.

(** * Statements *)
Lemma Hrect_pos k f : rectangular k f -> forall r c, (r <= ny k)%nat -> (c <= nx k)%nat -> 0 < area f r c.
Proof. intros H r c Hr Hc. destruct (H r c Hr Hc) as (H1 & _ & H3 & _). apply mul_pos; assumption. Qed.
Lemma supply_all sp k t0 bedcomp dist init fs os w' : solve sp k t0 bedcomp dist init fs = Ok (Some (os, w')) ->
  Forall2 (fun o fd => converged o = true -> all_within (number_of_cells k) (pickup o) (mass (snd fd)) /\
    forall i, (i < number_of_cells k)%nat -> let asked := (weight o i * Cu (snd fd) i - ct o i) / T k * dt k in
      pickup o i <= asked /\ (0 < weight o i * Cu (snd fd) i -> 0 <= max_error k -> asked - max_error k <= pickup o i)) os fs.
Proof.
  unfold solve. destruct (start_weights k t0 bedcomp dist init) as [w|]; [|discriminate]. cbn [bind]. intros H. apply fractions_each in H.
  induction H as [|o [f d] os fs (w0 & H0) _ IH]; constructor; [|exact IH]. cbn [fst snd] in *. intros Hc. split.
  - intros i Hi. apply (pickup_within sp k f d w0 o H0 Hc i Hi).
  - intros i Hi. destruct (pickup_within sp k f d w0 o H0 Hc i Hi) as (_ & H1 & H2). split; assumption.
Qed.


Lemma quiet_runs k f : quiet_ends k f -> check_boundaries k = Ok tt.
Proof.
  intros [(H1 & H2 & H3) | ((H1 & _ & H3) & H2 & _) ]; unfold check_boundaries, onshore_fixed; rewrite H3.
  - destruct H1 as [H1 | [H1 | [E H1]]]; rewrite H1 in *.
    1, 2: destruct H2 as [-> | [-> | [_ E]]]; [| |discriminate]; cbn; rewrite ?andb_false_r; reflexivity.
    rewrite E. cbn. rewrite orb_true_r. reflexivity.
  - rewrite H2. destruct H1 as [-> | ->]; cbn; rewrite andb_false_r; reflexivity.
Qed.
Lemma sensible_offsets k : sensible k -> distinct_offsets k = true.
Proof. intros (H1 & H2 & _). unfold distinct_offsets, width. destruct (Nat.eqb_spec (ny k) 0); [reflexivity|]. destruct (Nat.eqb_spec (ny k) 1); [contradiction|]. cbn [orb negb andb]. apply Nat.leb_le. lia. Qed.

Lemma iterate_any sp k f d m : forall n w, iterate sp (with_iterations k m) f d w n = iterate sp k f d w n.
Proof.
  induction n; intros w; cbn [iterate]. reflexivity.
  change (tidy (with_iterations k m) (sp (matrix (with_iterations k m) f) (rhs (with_iterations k m) f d w))) with (tidy k (sp (matrix k f) (rhs k f d w))).
  destruct (tidy k _) as [c|]; [|reflexivity]. change (anyn (cells (with_iterations k m)) (short (with_iterations k m) d w c)) with (anyn (cells k) (short k d w c)).
  destruct (anyn (cells k) (short k d w c)); [|reflexivity]. cbv zeta. rewrite IHn. reflexivity.
Qed.
Lemma converges sp k f d w : sensible k -> rectangular k f -> lateral_uniform k f -> gathering k f -> quiet_ends k f -> fully_implicit k ->
  nonnegative_input k d -> nonnegative_ends k f -> 0 < max_error k -> exact_solver (number_of_cells k) (matrix k f) sp -> all_nonneg (number_of_cells k) w ->
  exists n0, forall n, (n0 <= n)%nat -> exists o, solve_fraction sp (with_iterations k n) f d w = Ok (Some o) /\ converged o = true /\ all_within (number_of_cells k) (pickup o) (mass d).
Proof.
  intros H1 H2 H3 H4 H5 H6 H7 H8 H9 H10 H11. destruct (quiet_good k f H1 H2 H3 H4 H5) as (Hsolv & Hinv).
  assert (Hw : forall i, (i < cells k)%nat -> 0 <= w i) by (intros i Hi; apply H11; rewrite <- cells_eq; exact Hi).
  destruct (always_converges sp k f d H10 H1 Hsolv Hinv H6 H7 H8 H9 w Hw) as (n0 & Hn0).
  exists (S n0). intros n Hn. destruct (Hn0 (n - 1)%nat ltac:(lia)) as (o & E & Hc). exists o.
  assert (Es : solve_fraction sp (with_iterations k n) f d w = Ok (Some o)).
  { rewrite solve_fraction_ok.
    - change (max_iter (with_iterations k n)) with n. rewrite iterate_any. f_equal. exact E.
    - apply (quiet_runs (with_iterations k n) f). exact H5.
    - apply sensible_offsets. exact H1.
    - cbn. lia. }
  split. exact Es. split. exact Hc. intros i Hi. apply (pickup_within sp (with_iterations k n) f d w o Es Hc i Hi).
Qed.

Lemma one_nonneg k f : sensible k -> rectangular k f -> lateral_uniform k f -> gathering k f -> quiet_ends k f -> forall y,
  exists x, is_solution (number_of_cells k) (matrix k f) y x /\ (forall z, is_solution (number_of_cells k) (matrix k f) y z -> forall i, (i < number_of_cells k)%nat -> z i == x i) /\
    (all_nonneg (number_of_cells k) y -> all_nonneg (number_of_cells k) x).
Proof.
  intros H1 H2 H3 H4 H5 y. destruct (quiet_good k f H1 H2 H3 H4 H5) as (Hsolv & Hinv). destruct (Hsolv y) as (x & Hx). rewrite <- cells_eq. exists x. split. exact Hx. split.
  - intros z Hz i Hi. apply (inverse_unique k f y z x Hinv Hz Hx i Hi).
  - intros Hy. unfold all_nonneg. apply Hinv. intros i Hi. rewrite (Hx i Hi). apply Hy, Hi.
Qed.
Lemma one_inner_nonneg k f : sensible k -> rectangular k f -> lateral_uniform k f -> gathering k f -> prescribed_offshore k -> (forall r, (r <= ny k)%nat -> 0 <= us f r (nx k - 1)%nat) -> forall y,
  exists x, is_solution (number_of_cells k) (matrix k f) y x /\ (forall z, is_solution (number_of_cells k) (matrix k f) y z -> forall i, (i < number_of_cells k)%nat -> z i == x i) /\
    ((forall r c, (r <= ny k)%nat -> (c < nx k)%nat -> 0 <= at_cell k y r c) -> forall r c, (r <= ny k)%nat -> (c < nx k)%nat -> 0 <= at_cell k x r c).
Proof.
  intros H1 H2 H3 H4 H5 H6 y. destruct (open_solvable k f H1 H5 H6 H2 H3 H4 y) as (x & Hx). rewrite <- cells_eq. exists x. split. exact Hx. split.
  - intros z Hz i Hi. apply (open_unique k f H1 H5 H6 H2 H3 H4 y z x Hz Hx i Hi).
  - intros Hy. apply (open_inner_nonneg k f H1 H5 H6 H2 H3 H4). intros r c Hr Hc. rewrite (Hx _ (rc_lt k r c Hr ltac:(lia))). apply Hy; assumption.
Qed.
Lemma onshore_gathers k f : sensible k -> onshore_wind k f -> gathering k f.
Proof. intros (_ & Hnx & _) H. split. intros; apply H; lia. intros r c (Hr & H1 & H2) Hneg. specialize (H r c Hr ltac:(lia)). lra. Qed.
Lemma solution_exact sp k f d w : sensible k -> rectangular k f -> lateral_uniform k f -> gathering k f -> quiet_ends k f -> fully_implicit k ->
  nonnegative_input k d -> nonnegative_ends k f -> 0 < max_error k -> exact_solver (number_of_cells k) (matrix k f) sp -> all_nonneg (number_of_cells k) w ->
  forall o, solve_fraction sp k f d w = Ok (Some o) -> converged o = true ->
  all_nonneg (number_of_cells k) (ct o) /\ (forall i, (i < number_of_cells k)%nat -> 0 <= weight o i <= w i) /\
  is_solution (number_of_cells k) (matrix k f) (rhs k f d (weight o)) (ct o).
Proof.
  intros H1 H2 H3 H4 H5 H6 H7 H8 H9 H10 H11 o Ho Hc. destruct (quiet_good k f H1 H2 H3 H4 H5) as (Hsolv & Hinv).
  assert (Hw : forall i, (i < cells k)%nat -> 0 <= w i) by (intros i Hi; apply H11; rewrite <- cells_eq; exact Hi).
  apply solve_fraction_inv in Ho. symmetry in Ho. destruct (converged_state sp k f d H10 H1 Hsolv Hinv H6 H7 H8 H9 _ w o Hw Ho Hc) as (I1 & I2).
  rewrite <- cells_eq. repeat split.
  - intros i Hi. rewrite (I2 i Hi). apply (sol_nonneg sp k f d H10 H1 Hsolv Hinv H6 H7 H8); [intros j Hj; apply I1, Hj | exact Hi].
  - apply I1; assumption.
  - apply I1; assumption.
  - intros i Hi. pose proof (sol_solves sp k f d H10 Hsolv (weight o) i Hi) as E. rewrite <- E. apply sumn_ext. intros j Hj. rewrite (I2 j Hj). reflexivity.
Qed.
Lemma solver_bounded sp k f d w M u v : sensible k -> rectangular k f -> uniform_wind k f u v -> prescribed_ends k -> fully_implicit k ->
  nonnegative_input k d -> nonnegative_ends k f -> 0 < max_error k -> exact_solver (number_of_cells k) (matrix k f) sp -> all_nonneg (number_of_cells k) w -> bounded_by k f d w M ->
  forall o, solve_fraction sp k f d w = Ok (Some o) -> converged o = true -> forall i, (i < number_of_cells k)%nat -> 0 <= ct o i <= M.
Proof.
  intros H1 H2 H3 H4 H5 H6 H7 H8 H9 H10 H11 o Ho Hc i Hi. destruct (uniform_gathering k f u v H3) as (Hl & Hg). specialize (Hg H1).
  destruct (solution_exact sp k f d w H1 H2 Hl Hg (or_introl H4) H5 H6 H7 H8 H9 H10 o Ho Hc) as (S1 & S2 & S3). split. apply S1, Hi.
  apply (bounded k f u v H1 H2 H3 ltac:(apply H4) d (weight o) M (ct o)); try assumption.
  - destruct H11 as (B1 & B2 & B3). split; [exact B1 | split; [|exact B3]]. intros j Hj. destruct (B2 j Hj) as (C1 & C2). split. exact C1.
    eapply Qle_trans; [|exact C2]. apply mul_le_r. apply H6, Hj. apply S2, Hj.
  - rewrite cells_eq. exact S3.
  - rewrite cells_eq. exact Hi.
Qed.

Lemma removal k x : 0 <= max_error k -> (exists i, (i < number_of_cells k)%nat /\ 0 < x i) -> exists z, tidy k x = Some z /\
  (let total v := qsum (map v (seq 0 (number_of_cells k))) in
   total x <= total z <= total x + inject_Z (Z.of_nat (number_of_cells k)) * max_error k /\ (0 <= total x -> all_nonneg (number_of_cells k) z)).
Proof.
  intros He (i & Hi & Hx). rewrite <- cells_eq in *. unfold tidy. fold (untinied k x). pose proof (untinied_sum k x He) as Hsum.
  assert (Hp : ~ pos_sum (cells k) (untinied k x) == 0).
  { assert (0 < pos_sum (cells k) (untinied k x)); [|lra]. eapply Qlt_le_trans; [exact Hx|].
    eapply Qle_trans; [|apply (sumn_nonpos_member (cells k) (fun j => if negative (untinied k x) j then 0 else untinied k x j) i Hi)].
    - unfold negative, untinied. rewrite memo_get by exact Hi. rewrite tiny_nn by lra. destruct (Qltb_spec (x i) 0); lra.
    - intros j _. unfold negative. destruct (Qltb_spec (untinied k x j) 0); lra. }
  destruct (remove_never_nan (cells k) (untinied k x) (trunk k) Hp) as (z & Hz). exists z. split. exact Hz.
  cbv zeta. pose proof (remove_total _ _ _ _ Hz Hp) as E. change (qsum (map x (seq 0 (cells k)))) with (sumn (cells k) x). change (qsum (map z (seq 0 (cells k)))) with (sumn (cells k) z).
  split. rewrite E. exact Hsum. intros Hnn. intros j Hj. apply (remove_nonneg _ _ _ _ Hz); [lra | exact Hj].
Qed.

Lemma ends_onshore k f x : sensible k -> onshore_wind k f -> through_ends k f x ==
  over_rows k (fun r => dt k * dn f r 0%nat * (us f r 0%nat * at_cell k x r 0 - us f r (nx k - 1)%nat * at_cell k x r (nx k - 1))).
Proof.
  intros (_ & Hnx & _) H. apply sumn_ext. intros r Hr. assert (P : forall c, (c <= nx k)%nat -> qmax (us f r c) 0 == us f r c /\ qmin (us f r c) 0 == 0).
  { intros c Hc. specialize (H r c ltac:(lia) Hc). unfold qmax, qmin. destruct (Qle_bool_spec (us f r c) 0); split; lra. }
  rewrite (proj1 (P 0%nat ltac:(lia))), (proj1 (P (nx k - 1)%nat ltac:(lia))), (proj2 (P 1%nat ltac:(lia))), (proj2 (P (nx k) ltac:(lia))). ring.
Qed.
Lemma cell_mass k f d w x r c : sensible k -> rectangular k f -> lateral_uniform k f -> lateral k = Circular -> onshore_wind k f -> no_side_wind_in_1d k f -> trunk k = true -> fully_implicit k ->
  is_solution (number_of_cells k) (matrix k f) (rhs k f d w) x -> inside k r c ->
  area f r c * (at_cell k x r c - at_cell k (lCt d) r c) == inflow k f x r c + area f r c * exchange k d w x r c.
Proof. intros. apply cell_balance; try assumption. rewrite cells_eq. assumption. Qed.
Lemma mass_explained sp k f d w : sensible k -> rectangular k f -> lateral_uniform k f -> onshore_wind k f -> no_side_wind_in_1d k f -> quiet_ends k f -> trunk k = true -> fully_implicit k ->
  nonnegative_input k d -> (forall i, (i < number_of_cells k)%nat -> Cuf d i == Cu d i) -> nonnegative_ends k f -> 0 < max_error k ->
  exact_solver (number_of_cells k) (matrix k f) sp -> all_nonneg (number_of_cells k) w ->
  forall o, solve_fraction sp k f d w = Ok (Some o) -> converged o = true -> 0 <= unexplained k f d o <= max_error k * over_inside k (area f).
Proof.
  intros H1 H2 H3 H4 Hside H5 Htr H6 H7 Hcuf H8 H9 H10 H11 o Ho Hc. pose proof (onshore_gathers k f H1 H4) as Hg.
  destruct (solution_exact sp k f d w H1 H2 H3 Hg H5 H6 H7 H8 H9 H10 H11 o Ho Hc) as (S1 & S2 & S3).
  assert (Hl : lateral k = Circular) by (destruct H5 as [(_ & _ & E) | ((_ & _ & E) & _)]; exact E).
  unfold unexplained. rewrite (ends_onshore k f (ct o) H1 H4). rewrite <- cells_eq in S3.
  rewrite (total_balance k f d (weight o) (ct o) H1 H2 H3 Hl H4 Hside Htr H6 S3). rewrite !over_inside_sumn.
  set (B := over_rows k _).
  assert (P : forall r j, (r < S (ny k))%nat -> (j < nx k - 1)%nat ->
    0 <= area f r (S j) * exchange k d (weight o) (ct o) r (S j) - area f r (S j) * at_cell k (pickup o) r (S j) <= max_error k * area f r (S j)).
  { intros r j Hr Hj. assert (Hi : (r * S (nx k) + S j < number_of_cells k)%nat) by (rewrite <- cells_eq; apply (rc_lt k); lia).
    pose proof (Hrect_pos k f H2 r (S j) ltac:(lia) ltac:(lia)) as Ha. unfold exchange, at_cell. set (i := (r * S (nx k) + S j)%nat) in *.
    destruct (pickup_within sp k f d w o Ho Hc i Hi) as (P1 & P2 & P3). pose proof H1 as (_ & _ & Hdt & HT & _).
    assert (Ecap : capacity d i == Cu d i) by (unfold capacity; rewrite (Hcuf i Hi); ring). rewrite Ecap.
    setoid_replace ((weight o i * Cu d i - ct o i) * dt k / T k) with ((weight o i * Cu d i - ct o i) / T k * dt k) by (field; lra).
    set (q := (weight o i * Cu d i - ct o i) / T k * dt k) in *.
    assert (q - max_error k <= pickup o i).
    { destruct (Qlt_le_dec 0 (weight o i * Cu d i)) as [L|L]. apply P3; [exact L | lra].
      destruct (H7 i Hi) as (_ & _ & _ & _ & Hm). pose proof (S1 i Hi).
      assert (q <= 0). { unfold q. setoid_replace ((weight o i * Cu d i - ct o i) / T k * dt k) with ((dt k / T k) * (weight o i * Cu d i - ct o i)) by (field; lra). apply mul_np. apply Qlt_le_weak, Qlt_shift_div_l; lra. lra. }
      apply solve_fraction_inv in Ho. symmetry in Ho. rewrite <- cells_eq in Hi. destruct (iterate_converged sp k f d _ _ _ Ho Hc i Hi) as (E & _). rewrite E.
      apply qmin_glb; [unfold demand; fold q; lra | lra]. }
    pose proof (mul_nn (area f r (S j)) (q - pickup o i) ltac:(lra) ltac:(lra)). pose proof (mul_nn (area f r (S j)) (max_error k - (q - pickup o i)) ltac:(lra) ltac:(lra)). lra. }
  assert (Elow : 0 <= sumn (S (ny k)) (fun r => sumn (nx k - 1) (fun j => area f r (S j) * exchange k d (weight o) (ct o) r (S j) - area f r (S j) * at_cell k (pickup o) r (S j)))).
  { apply sumn_nonneg. intros r Hr. apply sumn_nonneg. intros j Hj. apply P; assumption. }
  assert (Ehigh : sumn (S (ny k)) (fun r => sumn (nx k - 1) (fun j => area f r (S j) * exchange k d (weight o) (ct o) r (S j) - area f r (S j) * at_cell k (pickup o) r (S j)))
    <= max_error k * sumn (S (ny k)) (fun r => sumn (nx k - 1) (fun j => area f r (S j)))).
  { rewrite <- sumn_scale. apply sumn_le. intros r Hr. rewrite <- sumn_scale. apply sumn_le. intros j Hj. apply P; assumption. }
  assert (Esplit : sumn (S (ny k)) (fun r => sumn (nx k - 1) (fun j => area f r (S j) * exchange k d (weight o) (ct o) r (S j) - area f r (S j) * at_cell k (pickup o) r (S j)))
    == sumn (S (ny k)) (fun r => sumn (nx k - 1) (fun j => area f r (S j) * exchange k d (weight o) (ct o) r (S j))) - sumn (S (ny k)) (fun r => sumn (nx k - 1) (fun j => area f r (S j) * at_cell k (pickup o) r (S j)))).
  { rewrite <- sumn_minus. apply sumn_ext. intros r _. apply sumn_minus. }
  rewrite Esplit in Elow, Ehigh. split; lra.
Qed.

Lemma saturated_unchanged sp k f d w C u v : sensible k -> rectangular k f -> uniform_wind k f u v -> 0 <= u -> (ny k <> 0%nat \/ v == 0) -> prescribed_offshore k ->
  0 <= C -> 0 <= max_error k -> max_iter k <> 0%nat -> saturated k f d w C -> exact_solver (number_of_cells k) (matrix k f) sp ->
  exists o, solve_fraction sp k f d w = Ok (Some o) /\ converged o = true /\ forall i, (i < number_of_cells k)%nat -> ct o i == C /\ pickup o i == 0 /\ weight o i = w i.
Proof.
  intros H1 H2 H3 Hu Hv H4 HC He Hit Hsat Hsp. destruct (uniform_gathering k f u v H3) as (Hl & Hg). specialize (Hg H1).
  assert (Hend : forall r, (r <= ny k)%nat -> 0 <= us f r (nx k - 1)%nat) by (intros r Hr; rewrite (proj1 (H3 r (nx k - 1)%nat Hr ltac:(lia))); exact Hu).
  pose proof (saturated_solves k f u v H1 H2 H3 ltac:(apply H4) d w C H4 Hsat Hv) as Hsol.
  assert (Hx : solves (cells k) (matrix k f) (rhs k f d w) (sp (matrix k f) (rhs k f d w))).
  { rewrite cells_eq. apply Hsp. exists (fun _ => C). rewrite <- cells_eq. exact Hsol. }
  pose proof (open_unique k f H1 H4 Hend H2 Hl Hg _ _ _ Hx Hsol) as Heq.
  destruct (tidy_nonneg_same k (sp (matrix k f) (rhs k f d w))) as (c & Et & Hcs). { intros i Hi. rewrite (Heq i Hi). exact HC. }
  destruct Hsat as (Hsat & _).
  assert (Hd : forall i, (i < cells k)%nat -> demand k d w c i == 0).
  { intros i Hi. unfold demand. rewrite (Hcs i Hi), (Heq i Hi). rewrite cells_eq in Hi. destruct (Hsat i Hi) as (_ & -> & _). pose proof H1 as (_ & _ & _ & HT & _). field. lra. }
  assert (Ea : anyn (cells k) (short k d w c) = false).
  { destruct (anyn (cells k) (short k d w c)) eqn:E; [|reflexivity]. apply anyn_spec in E. destruct E as (i & Hi & E). unfold short in E. specialize (Hd i Hi).
    destruct (Qltb_spec (max_error k) (demand k d w c i - mass d i)) as [L|]; [|discriminate]. rewrite cells_eq in Hi. destruct (Hsat i Hi) as (_ & _ & _ & _ & Hm). lra. }
  assert (Ek : check_boundaries k = Ok tt).
  { destruct H4 as (A1 & A2 & A3). unfold check_boundaries, onshore_fixed. rewrite A3.
    destruct A1 as [-> | ->]; destruct A2 as [-> | [-> | [-> | ->]]]; cbn; rewrite ?andb_false_r; reflexivity. }
  rewrite (solve_fraction_ok sp k f d w Ek (sensible_offsets k H1) Hit). destruct (max_iter k - 1)%nat; cbn [iterate]; rewrite Et, Ea; (eexists; split; [reflexivity | split; [reflexivity|]]); cbn [ct pickup weight];
    (intros i Hi; rewrite <- cells_eq in Hi; split; [rewrite (Hcs i Hi); apply Heq, Hi | split; [|reflexivity]]);
    (rewrite cells_eq in Hi; destruct (Hsat i Hi) as (_ & _ & _ & _ & Hm); rewrite <- cells_eq in Hi; specialize (Hd i Hi); unfold qmin; destruct (Qle_bool_spec (demand k d w c i) (mass d i)); lra).
Qed.

Lemma runs sp k t0 bedcomp dist init fs : known (offshore k) -> known (onshore k) -> lateral k = Circular \/ lateral k = Constant -> (ny k <> 1)%nat -> (2 <= nx k)%nat -> max_iter k <> 0%nat ->
  (trunk k = true \/ t0 = false \/ length dist = 1%nat) -> exists r, solve sp k t0 bedcomp dist init fs = Ok r.
Proof.
  intros H1 H2 H3 H4 H5 H6 H7. assert (Ek : check_boundaries k = Ok tt).
  { unfold check_boundaries, onshore_fixed. destruct H1 as [-> | [-> | [-> | ->]]], H2 as [-> | [-> | [-> | ->]]], H3 as [-> | ->]; cbn; rewrite ?andb_false_r; reflexivity. }
  assert (Eo : distinct_offsets k = true).
  { unfold distinct_offsets, width. destruct (Nat.eqb_spec (ny k) 0); [reflexivity|]. destruct (Nat.eqb_spec (ny k) 1); [contradiction|]. cbn [orb negb andb]. apply Nat.leb_le. lia. }
  assert (Ew : exists w, start_weights k t0 bedcomp dist init = Ok w).
  { unfold start_weights. destruct t0; [|eauto]. destruct (trunk k); [eauto|]. destruct H7 as [H7 | [H7 | H7]]; try discriminate. destruct dist as [|q [|]]; try discriminate. eauto. }
  destruct Ew as (w & Ew). unfold solve. rewrite Ew. cbn [bind]. generalize 0%nat as i. revert w Ew.
  assert (P : forall fs w i, exists r, fractions sp k i fs w = Ok r); [|intros w _ i; apply P].
  clear - Ek Eo H6. induction fs as [|[f d] fs IH]; intros w i; cbn [fractions]. eauto.
  rewrite (solve_fraction_ok sp k f d _ Ek Eo H6). cbn [bind]. destruct (iterate _ _ _ _ _ _) as [o|]; [|eauto].
  destruct (IH (fun c => set_nth i (weight o c) (renormalize_weights (w c) i)) (S i)) as (r & ->). cbn [bind]. eauto.
Qed.

(** * Concrete cases *)
Lemma gauss_exact k f : sensible k -> rectangular k f -> lateral_uniform k f -> gathering k f -> prescribed_ends k -> exact_solver (number_of_cells k) (matrix k f) (gauss (number_of_cells k)).
Proof.
  intros H1 H2 H3 H4 H5 y _. rewrite <- cells_eq. apply (gauss_solves (cells k) (matrix k f) (flat k (weights k f))); [apply regular_offdiag | apply regular_columns]; assumption.
Qed.
(** Steps, adaptation times and cells of size one. *)
Definition case_k (tr : bool) (rows cols : nat) (a : Q) (n : nat) (b1 b2 : boundary) (c1 : Q) : cfg :=
  {| trunk := tr; ny := rows; nx := cols; dt := 1; T := 1; alpha := a; max_error := 1 # 1000; max_iter := n; offshore := b1; onshore := b2; lateral := Circular;
     offshore_flux := 1; onshore_flux := 0; constant_offshore_flux := c1; constant_onshore_flux := 0 |}.
Definition case_f (u v : grid) : flow := {| us := u; un := v; uu := fun _ _ => 1; ds := fun _ _ => 1; dn := fun _ _ => 1 |}.
Definition even (q : Q) : grid := fun _ _ => q.
Definition case_d (cu cuf m l : nat -> Q) : input := {| Cu := cu; Cuf := cuf; Cu0 := cu; mass := m; lCt := l; lCu := cu; lCuf := cuf; lw := fun _ => 1; sat := fun _ => 0 |}.
Definition ones : nat -> Q := fun _ => 1.
Definition zeros : nat -> Q := fun _ => 0.
Definition tens : nat -> Q := fun _ => 10.
Definition show (k : cfg) (v : nat -> Q) : list Q := map (fun i => Qred (v i)) (seq 0 (number_of_cells k)).
Definition shown (k : cfg) (x : result (option outcome)) : option (list Q * list Q * bool) :=
  match x with Ok (Some o) => Some (show k (ct o), show k (pickup o), converged o) | _ => None end.
Definition by_gauss (k : cfg) (f : flow) (d : input) (w : nat -> Q) : result (option outcome) := solve_fraction (gauss (number_of_cells k)) k f d w.

Lemma case_sensible tr rows cols a n b1 b2 c : (rows <> 1)%nat -> (2 <= cols)%nat -> 0 <= a -> sensible (case_k tr rows cols a n b1 b2 c).
Proof. intros. repeat split; cbn; try assumption; lra. Qed.
Lemma case_rect k u v : rectangular k (case_f u v).
Proof. intros r c _ _. cbn. repeat split; lra. Qed.
Lemma case_even k u v : uniform_wind k (case_f (even u) (even v)) u v.
Proof. intros r c _ _. split; reflexivity. Qed.
Lemma case_ends tr rows cols a n b1 b2 c u v : 0 <= c -> nonnegative_ends (case_k tr rows cols a n b1 b2 c) (case_f u v).
Proof. intros. repeat split; cbn; try lra. Qed.
Lemma case_input k cu cuf m l : (forall i, 0 <= cu i /\ 0 <= cuf i /\ 0 <= m i /\ 0 <= l i) -> nonnegative_input k (case_d cu cuf m l).
Proof. intros H i _. destruct (H i) as (H1 & H2 & H3 & H4). unfold capacity. cbn. repeat split; lra. Qed.

(** A bare spot in the second cell: the iteration takes several rounds. *)
Definition spot : nat -> Q := fun i => if Nat.eqb i 2 then 0 else 1.
Definition k31 (n : nat) : cfg := case_k true 0 4 1 n Constant Constant 0.
Definition f31 : flow := case_f (even 1) (even 0).
Definition d31 : input := case_d tens tens spot zeros.
Lemma c31_holds n : well_posed (gauss (number_of_cells (k31 n))) (k31 n) f31 d31 ones.
Proof.
  assert (H1 : sensible (k31 n)) by (apply case_sensible; [discriminate | lia | lra]). assert (H2 : rectangular (k31 n) f31) by apply case_rect.
  destruct (uniform_gathering _ _ _ _ (case_even (k31 n) 1 0)) as (H3 & H4). specialize (H4 H1).
  assert (H5 : prescribed_ends (k31 n)) by (split; [right; left; reflexivity | split; [right; left; reflexivity | reflexivity]]).
  unfold well_posed. split; [exact H1|]. split; [exact H2|]. split; [exact H3|]. split; [exact H4|]. split; [left; exact H5|]. split; [intros _; reflexivity|]. split.
  { apply case_input. intros i. unfold tens, spot, zeros. destruct (Nat.eqb i 2); repeat split; lra. }
  split; [apply case_ends; lra|]. split; [reflexivity|]. split; [apply gauss_exact; assumption|]. intros i _. unfold ones. lra.
Qed.
Lemma c31_case : shown (k31 12) (by_gauss (k31 12) f31 d31 ones) =
  Some ([0; 9850 # 19683; 44356 # 177147; 332504 # 531441; 0], [1; 1; 0; 1; 1], true).
Proof. vm_compute. reflexivity. Qed.
(** The hypotheses of [supply_all] for two fractions. *)
Definition shown_all (k : cfg) (x : result (option (list outcome * (nat -> list Q)))) : option (list (list Q * bool)) :=
  match x with Ok (Some (os, _)) => Some (map (fun o => (show k (pickup o), converged o)) os) | _ => None end.
Lemma c31_all_case : shown_all (k31 12) (solve (gauss 5) (k31 12) true false [1 # 2; 1 # 2] (fun _ => []) [(f31, d31); (f31, case_d ones ones ones ones)]) =
  Some [([1; 1; 0; 1; 1], true); ([9 # 10; 4592 # 19683; 2429 # 21870; -111601 # 1771470; 9 # 10], true)].
Proof. vm_compute. reflexivity. Qed.

Lemma c31_refuted : exists sp k f d w o i, well_posed sp k f d w /\ solve_fraction sp k f d w = Ok (Some o) /\ (i < number_of_cells k)%nat /\ mass d i < pickup o i.
Proof.
  eexists (gauss 5), (k31 1), f31, d31, ones, _, 1%nat. split; [apply (c31_holds 1)|]. split; [vm_compute; reflexivity|]. split; [cbn; lia|]. vm_compute. reflexivity.
Qed.

(** *** C32 *)
Definition column (l : list Q) : grid := fun _ c => nth c l 0.
Definition solve_once (k : cfg) (f : flow) (d : input) (w : nat -> Q) : nat -> Q := gauss (number_of_cells k) (matrix k f) (rhs k f d w).
Definition solvesb (k : cfg) (f : flow) (d : input) (w x : nat -> Q) : bool := forallb (fun i => Qeq_bool (row_times (number_of_cells k) (matrix k f) x i) (rhs k f d w i)) (seq 0 (number_of_cells k)).
Lemma solvesb_ok k f d w x : solvesb k f d w x = true -> is_solution (number_of_cells k) (matrix k f) (rhs k f d w) x.
Proof. unfold solvesb. rewrite forallb_forall. intros H i Hi. apply Qeq_bool_eq, H, in_seq. lia. Qed.
(** Wind away from the middle of a beach with sand on one side only. *)
Definition apart : flow := case_f (column [-(1); -(1); 1; 1]) (even 0).
Definition d32 : input := case_d (fun i => if Nat.eqb i 2 then 10 else 0) (fun i => if Nat.eqb i 2 then 10 else 0) ones zeros.
Lemma d32_nn k : nonnegative_input k d32.
Proof. apply case_input. intros i. unfold ones, zeros. destruct (Nat.eqb i 2); repeat split; lra. Qed.
Lemma c32_apart : exists k f d w x i, sensible k /\ rectangular k f /\ lateral_uniform k f /\ prescribed_ends k /\ fully_implicit k /\ nonnegative_input k d /\ nonnegative_ends k f /\
  all_nonneg (number_of_cells k) w /\ is_solution (number_of_cells k) (matrix k f) (rhs k f d w) x /\ (i < number_of_cells k)%nat /\ x i < 0.
Proof.
  exists (case_k true 0 3 1 9 Constant Constant 0), apart, d32, ones, (solve_once (case_k true 0 3 1 9 Constant Constant 0) apart d32 ones), 1%nat.
  split; [apply case_sensible; [discriminate | lia | lra]|]. split; [apply case_rect|]. split; [intros r c _ _; reflexivity|].
  split; [split; [right; left; reflexivity | split; [right; left; reflexivity | reflexivity]]|]. split; [intros _; reflexivity|]. split; [apply d32_nn|].
  split; [apply case_ends; lra|]. split; [intros i _; unfold ones; lra|]. split; [apply solvesb_ok; vm_compute; reflexivity|]. split; [cbn; lia | vm_compute; reflexivity].
Qed.
(** The default onshore boundary extrapolates. *)
Lemma c32_gradient : exists k f d w x i, sensible k /\ rectangular k f /\ lateral_uniform k f /\ gathering k f /\ prescribed_offshore k /\ onshore k = Gradient /\ onshore_wind k f /\ fully_implicit k /\
  nonnegative_input k d /\ nonnegative_ends k f /\ all_nonneg (number_of_cells k) w /\ is_solution (number_of_cells k) (matrix k f) (rhs k f d w) x /\ (i < number_of_cells k)%nat /\ x i < 0.
Proof.
  set (k := case_k true 0 4 1 9 Constant Gradient 0). assert (Hs : sensible k) by (apply case_sensible; [discriminate | lia | lra]).
  assert (Hw : onshore_wind k f31) by (intros r c _ _; vm_compute; discriminate).
  exists k, f31, d32, ones, (solve_once k f31 d32 ones), 4%nat. split; [exact Hs|]. split; [apply case_rect|]. split; [intros r c _ _; reflexivity|]. split; [apply onshore_gathers; assumption|].
  split; [split; [right; reflexivity | split; [right; right; right; reflexivity | reflexivity]]|]. split; [reflexivity|]. split; [exact Hw|]. split; [intros _; reflexivity|]. split; [apply d32_nn|].
  split; [apply case_ends; lra|]. split; [intros i _; unfold ones; lra|]. split; [apply solvesb_ok; vm_compute; reflexivity|]. split; [cbn; lia | vm_compute; reflexivity].
Qed.
(** Wind that dies out over a saturated beach. *)
Definition dying : flow := case_f (column [2; 2; 0; 0]) (even 0).
Lemma c32_unbounded : exists k f d w M x i, sensible k /\ rectangular k f /\ lateral_uniform k f /\ gathering k f /\ onshore_wind k f /\ prescribed_ends k /\ fully_implicit k /\
  nonnegative_input k d /\ nonnegative_ends k f /\ all_nonneg (number_of_cells k) w /\ bounded_by k f d w M /\ is_solution (number_of_cells k) (matrix k f) (rhs k f d w) x /\ (i < number_of_cells k)%nat /\ M < x i.
Proof.
  set (k := case_k true 0 3 1 9 Constant Constant 1). assert (Hs : sensible k) by (apply case_sensible; [discriminate | lia | lra]).
  assert (Hw : onshore_wind k dying) by (intros r [|[|[|[|c]]]] _ H; try (vm_compute; discriminate); cbn in H; lia). set (d := case_d ones ones ones ones).
  exists k, dying, d, ones, 1, (solve_once k dying d ones), 2%nat. split; [exact Hs|]. split; [apply case_rect|]. split; [intros r c _ _; reflexivity|]. split; [apply onshore_gathers; assumption|]. split; [exact Hw|].
  split; [split; [right; left; reflexivity | split; [right; left; reflexivity | reflexivity]]|]. split; [intros _; reflexivity|]. split; [apply case_input; intros; unfold ones; repeat split; lra|].
  split; [apply case_ends; lra|]. split; [intros i _; unfold ones; lra|]. split.
  { split; [lra|]. split. intros i _. unfold capacity, d, ones. cbn. lra. intros r _. cbn. split; apply Qle_shift_div_r; lra. }
  split; [apply solvesb_ok; vm_compute; reflexivity|]. split; [cbn; lia | vm_compute; reflexivity].
Qed.
(** Three rows and four columns, oblique wind. *)
Definition k32 : cfg := case_k true 2 3 1 30 Flux Constant 0.
Definition f32 : flow := case_f (even 1) (even (-(1))).
Definition d32b : input := case_d tens tens spot ones.
Lemma c32_case : well_posed (gauss (number_of_cells k32)) k32 f32 d32b ones /\ uniform_wind k32 f32 1 (-(1)) /\ prescribed_ends k32 /\ bounded_by k32 f32 d32b ones 10 /\
  shown k32 (by_gauss k32 f32 d32b ones) =
    Some ([10; 13123 # 2187; 2902520037370 # 794280046581; 0; 10; 13123 # 2187; 3146913857830 # 794280046581; 0; 10; 13123 # 2187; 3085815657460 # 794280046581; 0],
          [0; 1; 0; 1; 0; 1; 1; 1; 0; 1; 1; 1], true).
Proof.
  assert (H1 : sensible k32) by (apply case_sensible; [discriminate | lia | lra]). assert (H2 : rectangular k32 f32) by apply case_rect.
  destruct (uniform_gathering _ _ _ _ (case_even k32 1 (-(1)))) as (H3 & H4). specialize (H4 H1).
  assert (H5 : prescribed_ends k32) by (split; [left; reflexivity | split; [right; left; reflexivity | reflexivity]]).
  split. { unfold well_posed. split; [exact H1|]. split; [exact H2|]. split; [exact H3|]. split; [exact H4|]. split; [left; exact H5|]. split; [intros _; reflexivity|]. split.
  { apply case_input. intros i. unfold tens, spot, ones. destruct (Nat.eqb i 2); repeat split; lra. }
  split; [apply case_ends; lra|]. split; [reflexivity|]. split; [apply gauss_exact; assumption|]. intros i _. unfold ones. lra. }
  split; [apply case_even|]. split; [exact H5|]. split.
  { split; [lra|]. split. intros i _. unfold capacity, d32b, ones, tens. cbn. lra. intros r _. cbn. unfold tens. split. lra. apply Qle_shift_div_r; lra. }
  vm_compute. reflexivity.
Qed.

(** *** C33 *)
Definition vec (l : list Q) : nat -> Q := fun i => nth i l 0.
Definition k33 (tr : bool) : cfg := case_k tr 0 3 1 9 Constant Constant 0.
Definition tidied (k : cfg) (x : nat -> Q) : option (list Q) := match tidy k x with Some z => Some (show k z) | None => None end.
Lemma c33_case : (0 < vec [3; -(1); 1; 0] 0)%Q /\ tidied (k33 true) (vec [3; -(1); 1; 0]) = Some [9 # 4; 0; 3 # 4; 0] /\ tidied (k33 false) (vec [3; -(1); 1; -(1 # 2000)]) = Some [9 # 4; 0; 3 # 4; 0].
Proof. repeat split; vm_compute; reflexivity. Qed.
Lemma c33_created : exists k x z, 0 < max_error k /\ tidy k x = Some z /\ qsum (map z (seq 0 (number_of_cells k))) == 0 /\ qsum (map x (seq 0 (number_of_cells k))) == -(1).
Proof. eexists (k33 true), (vec [0; -(1); 0; 0]), _. split; [reflexivity|]. split; [vm_compute; reflexivity|]. split; reflexivity. Qed.
Lemma c33_negative : exists k x z i, 0 < max_error k /\ (exists j, (j < number_of_cells k)%nat /\ 0 < x j) /\ tidy k x = Some z /\ (i < number_of_cells k)%nat /\ z i < 0.
Proof.
  eexists (k33 true), (vec [0; -(2); 1; 0]), _, 2%nat. split; [reflexivity|]. split; [exists 2%nat; split; [cbn; lia | reflexivity]|]. split; [vm_compute; reflexivity|]. split; [cbn; lia | reflexivity].
Qed.
Lemma c33_nan : exists k x, trunk k = false /\ 0 < max_error k /\ tidy k x = None.
Proof. exists (k33 false), (vec [0; -(1); 0; 0]). split; [reflexivity|]. split; [reflexivity|]. vm_compute. reflexivity. Qed.
Lemma c33_uneven : exists k x z size, 0 < max_error k /\ (forall i, (i < number_of_cells k)%nat -> 0 < size i) /\ all_nonneg (number_of_cells k) z /\ tidy k x = Some z /\
  qsum (map (fun i => size i * x i) (seq 0 (number_of_cells k))) == 19 /\ qsum (map (fun i => size i * z i) (seq 0 (number_of_cells k))) == 10.
Proof.
  eexists (k33 true), (vec [0; -(1); 2; 0]), _, (vec [1; 1; 10; 1]). split; [reflexivity|]. split; [intros [|[|[|[|i]]]] H; try reflexivity; cbn in H; lia|].
  split; [|split; [vm_compute; reflexivity|]].
  - intros i _. do 4 (destruct i as [|i]; [vm_compute; discriminate|]). destruct i; vm_compute; discriminate.
  - split; reflexivity.
Qed.

(** *** C63 *)
(** Sand enters from the sea, is picked up and is deposited on the bare spot; three rows and four columns. *)
Lemma c63_case : well_posed (gauss (number_of_cells k32)) k32 f32 d32b ones /\ onshore_wind k32 f32 /\ no_side_wind_in_1d k32 f32 /\ trunk k32 = true /\
  (forall i, (i < number_of_cells k32)%nat -> Cuf d32b i == Cu d32b i) /\
  match by_gauss k32 f32 d32b ones with
  | Ok (Some o) => converged o = true /\ Qred (through_ends k32 f32 (ct o)) = 121370 # 6561 /\ Qred (unexplained k32 f32 d32b o) = 26 # 6561
  | _ => False
  end.
Proof.
  split; [apply c32_case|]. split; [intros r c _ _; vm_compute; discriminate|]. split; [intros E; discriminate|]. split; [reflexivity|]. split; [reflexivity|]. vm_compute. split; [reflexivity|]. split; reflexivity.
Qed.

Definition k63 (rows : nat) (a : Q) : cfg := case_k true rows 3 a 9 Constant Constant 1.
Lemma c63_ordinary rows a u v cu cuf m l : (rows <> 1)%nat -> 0 <= a -> (forall i, 0 <= cu i /\ 0 <= cuf i /\ 0 <= m i /\ 0 <= l i) -> ordinary (k63 rows a) (case_f u v) (case_d cu cuf m l) ones.
Proof.
  intros Hr Ha H. split; [reflexivity|]. split; [apply case_sensible; [exact Hr | lia | exact Ha]|]. split; [apply case_rect|].
  split; [split; [right; left; reflexivity | split; [right; left; reflexivity | reflexivity]]|]. split; [apply case_input, H|]. split; [apply case_ends; lra|]. split; [reflexivity|]. intros i _. unfold ones. lra.
Qed.
Lemma lost k f d w o : by_gauss k f d w = Ok (Some o) -> converged o = true -> solvesb k f d w (ct o) = true -> Qltb (max_error k * over_inside k (area f)) (qabs (unexplained k f d o)) = true ->
  sand_lost_or_gained (gauss (number_of_cells k)) k f d w.
Proof. intros H1 H2 H3 H4. exists o. split; [exact H1|]. split; [exact H2|]. split; [apply solvesb_ok, H3|]. destruct (Qltb_spec (max_error k * over_inside k (area f)) (qabs (unexplained k f d o))); [assumption | discriminate]. Qed.
Ltac lost := eapply lost; [vm_compute; reflexivity | vm_compute; reflexivity | vm_compute; reflexivity | vm_compute; reflexivity].
Ltac plain := apply c63_ordinary; [discriminate | lra | intros i; unfold ones, tens, zeros; repeat split; lra].
Lemma c63_oblique : exists sp k f d w u v, ordinary k f d w /\ same_capacity k d /\ fully_implicit k /\ ny k = 0%nat /\ uniform_wind k f u v /\ 0 <= u /\ sand_lost_or_gained sp k f d w.
Proof.
  exists (gauss 4), (k63 0 1), (case_f (even 1) (even 1)), (case_d ones ones tens ones), ones, 1, 1. split; [plain|]. split; [intros i _; reflexivity|]. split; [intros _; reflexivity|]. split; [reflexivity|].
  split; [apply case_even|]. split; [lra|]. lost.
Qed.
Lemma c63_rock : exists sp k f d w u, ordinary k f d w /\ fully_implicit k /\ uniform_wind k f u 0 /\ 0 <= u /\ sand_lost_or_gained sp k f d w.
Proof.
  exists (gauss 4), (k63 0 1), (case_f (even 1) (even 0)), (case_d zeros ones zeros zeros), ones, 1. split; [plain|]. split; [intros _; reflexivity|]. split; [apply case_even|]. split; [lra|]. lost.
Qed.
Lemma c63_half : exists sp k f d w u, ordinary k f d w /\ same_capacity k d /\ alpha k == 1 # 2 /\ uniform_wind k f u 0 /\ 0 <= u /\ sand_lost_or_gained sp k f d w.
Proof.
  exists (gauss 4), (k63 0 (1 # 2)), (case_f (even 1) (even 0)), (case_d tens tens tens zeros), ones, 1. split; [plain|]. split; [intros i _; reflexivity|]. split; [reflexivity|]. split; [apply case_even|]. split; [lra|]. lost.
Qed.
Lemma c63_meeting : exists sp k f d w, ordinary k f d w /\ same_capacity k d /\ fully_implicit k /\ gathering k f /\ lateral_uniform k f /\ no_side_wind_in_1d k f /\ sand_lost_or_gained sp k f d w.
Proof.
  exists (gauss 4), (k63 0 1), (case_f (column [1; 1; -(1); -(1)]) (even 0)), (case_d ones ones tens ones), ones. split; [plain|]. split; [intros i _; reflexivity|]. split; [intros _; reflexivity|]. split.
  { split. intros r c _ Hc Hu. destruct c as [|[|c]]; try (vm_compute; discriminate). cbn in Hc. lia.
    intros r c (_ & H1 & H2) Hu. destruct c as [|[|[|c]]]; try (vm_compute; discriminate); try (cbn in H2; lia). }
  split; [intros r c _ _; reflexivity|]. split; [intros _ c _; reflexivity|]. lost.
Qed.
Lemma c63_parting : exists sp k f d w, ordinary k f d w /\ same_capacity k d /\ fully_implicit k /\ lateral_uniform k f /\ no_side_wind_in_1d k f /\ sand_lost_or_gained sp k f d w.
Proof.
  exists (gauss 4), (k63 0 1), apart, (case_d tens tens tens ones), ones. split; [plain|]. split; [intros i _; reflexivity|]. split; [intros _; reflexivity|].
  split; [intros r c _ _; reflexivity|]. split; [intros _ c _; reflexivity|]. lost.
Qed.
(** The side wind differs between the rows. *)
Definition rows_of (l : list Q) : grid := fun r _ => nth r l 0.
Lemma c63_sideways : exists sp k f d w, ordinary k f d w /\ same_capacity k d /\ fully_implicit k /\ onshore_wind k f /\ (forall r c, 0 <= un f r c) /\ (2 <= ny k)%nat /\ sand_lost_or_gained sp k f d w.
Proof.
  exists (gauss 12), (k63 2 1), (case_f (even 1) (rows_of [1; 2; 3])), (case_d ones ones tens ones), ones. split; [plain|]. split; [intros i _; reflexivity|]. split; [intros _; reflexivity|].
  split; [intros r c _ _; vm_compute; discriminate|]. split; [intros r c; do 4 (destruct r as [|r]; [vm_compute; discriminate|]); vm_compute; discriminate|]. split; [cbn; lia|]. lost.
Qed.
(** Seen from the other side, the same wind makes another difference: the coefficients of the next row are taken from the wrong row. *)
Lemma c63_mirror : exists k f g x, (ny k = 3)%nat /\ sensible k /\ (forall r c, 0 <= un f r c) /\ (forall r c, (r <= ny k)%nat -> un g r c = - un f (ny k - r)%nat c) /\
  (forall r c, us f r c = us g r c /\ ds f r c = ds g r c /\ dn f r c = dn g r c) /\ rectangular k f /\
  ~ row_times (number_of_cells k) (matrix k f) x (2 * 4 + 1) == row_times (number_of_cells k) (matrix k g) (fun i => x ((3 - i / 4) * 4 + i mod 4)%nat) (1 * 4 + 1).
Proof.
  exists (k63 3 1), (case_f (even 1) (rows_of [1; 2; 3; 4])), (case_f (even 1) (rows_of [-(4); -(3); -(2); -(1)])), (vec [1; 2; 3; 4; 5; 6; 7; 8; 9; 10; 11; 12; 13; 14; 15; 16]).
  split; [reflexivity|]. split; [apply case_sensible; [discriminate | lia | lra]|]. split; [intros r c; do 5 (destruct r as [|r]; [vm_compute; discriminate|]); vm_compute; discriminate|].
  split; [intros r c Hr; cbn in Hr; do 4 (destruct r as [|r]; [reflexivity|]); lia|]. split; [intros; repeat split|]. split; [apply case_rect|]. vm_compute. discriminate.
Qed.

(** *** C64 *)
Definition k64 (rows : nat) : cfg := case_k true rows 3 (1 # 2) 9 Flux Gradient 0.
Definition d64 : input := case_d tens tens tens tens.
Lemma c64_saturated rows u v : saturated (k64 rows) (case_f u v) d64 ones 10.
Proof.
  split. intros i _. unfold capacity, ones, d64, tens. cbn. repeat split; lra. intros r _. cbn. unfold tens. split. lra. intros [E | E]; discriminate.
Qed.
Lemma c64_case : sensible (k64 2) /\ rectangular (k64 2) f32 /\ uniform_wind (k64 2) f32 1 (-(1)) /\ prescribed_offshore (k64 2) /\ saturated (k64 2) f32 d64 ones 10 /\
  shown (k64 2) (by_gauss (k64 2) f32 d64 ones) = Some (repeat 10 12, repeat 0 12, true).
Proof.
  split; [apply case_sensible; [discriminate | lia | lra]|]. split; [apply case_rect|]. split; [apply case_even|]. split; [split; [left; reflexivity | split; [right; right; right; reflexivity | reflexivity]]|].
  split; [apply c64_saturated|]. vm_compute. reflexivity.
Qed.
Lemma c64_refuted : exists sp k f d w C u v o i, sensible k /\ rectangular k f /\ uniform_wind k f u v /\ 0 <= u /\ ny k = 0%nat /\ prescribed_offshore k /\ 0 <= C /\ 0 < max_error k /\ saturated k f d w C /\
  solve_fraction sp k f d w = Ok (Some o) /\ converged o = true /\ is_solution (number_of_cells k) (matrix k f) (rhs k f d w) (ct o) /\ inside k 0 i /\ ct o i < C /\ 0 < pickup o i.
Proof.
  eexists (gauss 4), (k64 0), (case_f (even 1) (even 1)), d64, ones, 10, 1, 1, _, 1%nat. split; [apply case_sensible; [discriminate | lia | lra]|]. split; [apply case_rect|]. split; [apply case_even|].
  split; [lra|]. split; [reflexivity|]. split; [split; [left; reflexivity | split; [right; right; right; reflexivity | reflexivity]]|]. split; [lra|]. split; [reflexivity|]. split; [apply c64_saturated|].
  split; [vm_compute; reflexivity|]. split; [reflexivity|]. split; [apply solvesb_ok; vm_compute; reflexivity|]. split; [repeat split; cbn; lia|]. split; vm_compute; reflexivity.
Qed.

(** *** C65 *)
Lemma c65_first_step sp k bedcomp d1 d2 dist init fs : trunk k = false -> solve sp k true bedcomp (d1 :: d2 :: dist) init fs = Raise ValueError.
Proof. intros H. unfold solve, start_weights. rewrite H. reflexivity. Qed.
Lemma fractions_raise sp k e w f d fs : (forall w, solve_fraction sp k f d w = Raise e) -> fractions sp k 0 ((f, d) :: fs) w = Raise e.
Proof. intros H. cbn [fractions]. rewrite H. reflexivity. Qed.
Lemma c65_two_rows sp k t0 bedcomp dist init f d fs : trunk k = true -> known (offshore k) -> known (onshore k) -> lateral k = Circular \/ lateral k = Constant -> ny k = 1%nat ->
  solve sp k t0 bedcomp dist init ((f, d) :: fs) = Raise ValueError.
Proof.
  intros H0 H1 H2 H3 H4. unfold solve, start_weights. rewrite H0. assert (P : forall w, fractions sp k 0 ((f, d) :: fs) w = Raise ValueError); [|destruct t0, bedcomp; apply P].
  intros w. apply fractions_raise. intros w0. unfold solve_fraction. assert (Ek : check_boundaries k = Ok tt).
  { unfold check_boundaries, onshore_fixed. destruct H1 as [-> | [-> | [-> | ->]]], H2 as [-> | [-> | [-> | ->]]], H3 as [-> | ->]; cbn; rewrite ?andb_false_r; reflexivity. }
  rewrite Ek. cbn [bind]. unfold distinct_offsets. rewrite H4. reflexivity.
Qed.
Lemma c65_noflux sp k t0 bedcomp dist init f d fs : trunk k = true -> known (offshore k) -> onshore k = Noflux -> solve sp k t0 bedcomp dist init ((f, d) :: fs) = Raise ValueError.
Proof.
  intros H0 H1 H2. unfold solve, start_weights. rewrite H0. assert (P : forall w, fractions sp k 0 ((f, d) :: fs) w = Raise ValueError); [|destruct t0, bedcomp; apply P].
  intros w. apply fractions_raise. intros w0. unfold solve_fraction. assert (Ek : check_boundaries k = Raise ValueError).
  { unfold check_boundaries, onshore_fixed. rewrite H2. destruct H1 as [-> | [-> | [-> | ->]]]; cbn; rewrite ?andb_false_r; reflexivity. }
  rewrite Ek. reflexivity.
Qed.
Lemma c65_steady_noflux sp k bedcomp dist init f d fs t0 : trunk k = false -> t0 = false \/ length dist = 1%nat -> offshore k = Noflux \/ (known (offshore k) /\ onshore k = Noflux) ->
  solve sp k t0 bedcomp dist init ((f, d) :: fs) = Raise ValueError.
Proof.
  intros H0 Ht H2. unfold solve, start_weights. rewrite H0. assert (P : forall w, fractions sp k 0 ((f, d) :: fs) w = Raise ValueError).
  { intros w. apply fractions_raise. intros w0. unfold solve_fraction. assert (Ek : check_boundaries k = Raise ValueError).
    { unfold check_boundaries, onshore_fixed. rewrite H0. destruct H2 as [-> | [H1 ->]]; [reflexivity|]. destruct H1 as [-> | [-> | [-> | ->]]]; cbn; rewrite ?andb_false_r; reflexivity. }
    rewrite Ek. reflexivity. }
  destruct t0; [|apply P]. destruct Ht as [Ht|Ht]; [discriminate|]. destruct dist as [|x [|y dist]]; try discriminate. apply P.
Qed.
Lemma c65_steady_noflux_case : trunk (case_k false 2 3 1 9 Noflux Gradient 0) = false /\ offshore (case_k false 2 3 1 9 Noflux Gradient 0) = Noflux /\ offshore (case_k true 2 3 1 9 Noflux Gradient 0) = Noflux /\
  match solve (gauss 12) (case_k true 2 3 1 9 Noflux Gradient 0) false false [1] (fun _ => [1]) [(f32, d64)] with Ok (Some (os, _)) => length os = 1%nat | _ => False end.
Proof. split; [reflexivity|]. split; [reflexivity|]. split; [reflexivity|]. vm_compute. reflexivity. Qed.
Lemma c65_lateral sp k t0 bedcomp dist init f d fs : trunk k = true -> known (offshore k) -> known (onshore k) -> lateral k = Uniform \/ lateral k = Gradient ->
  solve sp k t0 bedcomp dist init ((f, d) :: fs) = Raise NotImplementedError.
Proof.
  intros H0 H1 H2 H3. unfold solve, start_weights. rewrite H0. assert (P : forall w, fractions sp k 0 ((f, d) :: fs) w = Raise NotImplementedError); [|destruct t0, bedcomp; apply P].
  intros w. apply fractions_raise. intros w0. unfold solve_fraction. assert (Ek : check_boundaries k = Raise NotImplementedError).
  { unfold check_boundaries, onshore_fixed. destruct H1 as [-> | [-> | [-> | ->]]], H2 as [-> | [-> | [-> | ->]]], H3 as [-> | ->]; cbn; rewrite ?andb_false_r; reflexivity. }
  rewrite Ek. reflexivity.
Qed.
Lemma c65_case : known (offshore (k64 2)) /\ known (onshore (k64 2)) /\
  match solve (gauss 12) (k64 2) true false [1 # 2; 1 # 2] (fun _ => []) [(f32, d64); (f32, d64)] with Ok (Some (os, _)) => length os = 2%nat | _ => False end.
Proof. split; [left; reflexivity|]. split; [right; right; right; reflexivity|]. vm_compute. reflexivity. Qed.
Lemma c65_refuted : exists sp k bedcomp dist init fs, known (offshore k) /\ known (onshore k) /\ lateral k = Circular /\ sensible k /\ max_iter k <> 0%nat /\
  solve sp k true bedcomp dist init fs = Raise ValueError /\ length dist = length fs.
Proof.
  exists (gauss 12), (case_k false 2 3 1 9 Flux Gradient 0), false, [1 # 2; 1 # 2], (fun _ => []), [(f32, d64); (f32, d64)].
  split; [left; reflexivity|]. split; [right; right; right; reflexivity|]. split; [reflexivity|]. split; [apply case_sensible; [discriminate | lia | lra]|]. split; [discriminate|]. split; reflexivity.
Qed.

(** *** C100 *)
Lemma c100_file sp k t0 b dist dist' init fs : trunk k = true -> solve sp k true true dist init fs = solve sp k false b dist' init fs /\ solve sp k t0 true dist init fs = solve sp k t0 true dist' init fs.
Proof. intros H. unfold solve, start_weights. rewrite H. split; [reflexivity|]. destruct t0; reflexivity. Qed.
Lemma c100_dist sp k b dist dist' init fs : trunk k = true -> solve sp k true false dist init fs = solve sp k false b dist' (fun _ => dist) fs.
Proof. intros H. unfold solve, start_weights. rewrite H. reflexivity. Qed.
(** The concentrations of all fractions in the first cells. *)
Definition first_cells (n : nat) (r : result (option (list outcome * (nat -> list Q)))) : list (list Q) :=
  match r with Ok (Some (os, _)) => map (fun o => map (fun i => Qred (ct o i)) (seq 0 n)) os | _ => [] end.
Definition halves : list Q := [1 # 2; 1 # 2].
Definition one_d : cfg := case_k true 0 3 1 9 Constant Gradient 0.
Lemma c100_case : trunk one_d = true /\
  first_cells 4 (solve (gauss 4) one_d true false halves (fun _ => []) [(case_f (even 1) (even 0), d64); (case_f (even 1) (even 0), d64)]) = [[0; 5; 20 # 3; 25 # 3]; [0; 5; 20 # 3; 25 # 3]] /\
  first_cells 4 (solve (gauss 4) one_d true true halves (fun _ => [1; 0]) [(case_f (even 1) (even 0), d64); (case_f (even 1) (even 0), d64)]) <> [[0; 5; 20 # 3; 25 # 3]; [0; 5; 20 # 3; 25 # 3]].
Proof. split; [reflexivity|]. split; [vm_compute; reflexivity|]. vm_compute. discriminate. Qed.
Lemma less_picked_up (r r' : result (option (list outcome * (nat -> list Q)))) :
  match r, r' with Ok (Some (o :: _, _)), Ok (Some (o' :: _, _)) => Qltb (ct o 1%nat) (ct o' 1%nat) | _, _ => false end = true ->
  exists os w os' w' o o', r = Ok (Some (os, w)) /\ r' = Ok (Some (os', w')) /\ nth_error os 0 = Some o /\ nth_error os' 0 = Some o' /\ ct o 1%nat < ct o' 1%nat.
Proof.
  destruct r as [[[[|o os] w]|]|]; try discriminate. destruct r' as [[[[|o' os'] w']|]|]; try discriminate. intros E.
  exists (o :: os), w, (o' :: os'), w', o, o'. split; [reflexivity|]. split; [reflexivity|]. split; [reflexivity|]. split; [reflexivity|].
  destruct (Qltb_spec (ct o 1%nat) (ct o' 1%nat)); [assumption|discriminate].
Qed.
Lemma c100_layers : exists sp k fs layers, trunk k = true /\ (forall l, In l layers -> l = [1 # 2; 1 # 2]) /\ length layers = 2%nat /\ length fs = 2%nat /\
  exists os w os' w' o o', solve sp k true false (concat layers) (fun _ => [1 # 2; 1 # 2]) fs = Ok (Some (os, w)) /\ solve sp k false false (concat layers) (fun _ => [1 # 2; 1 # 2]) fs = Ok (Some (os', w')) /\
    nth_error os 0 = Some o /\ nth_error os' 0 = Some o' /\ ct o 1%nat < ct o' 1%nat.
Proof.
  exists (gauss 4), one_d, [(case_f (even 1) (even 0), d64); (case_f (even 1) (even 0), d64)], [halves; halves].
  split; [reflexivity|]. split; [intros l [<-|[<-|[]]]; reflexivity|]. split; [reflexivity|]. split; [reflexivity|].
  apply less_picked_up. vm_compute. reflexivity.
Qed.
